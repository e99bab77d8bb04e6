(* Proofs of the theorems restated in Keys_Properties.v. *)
From Coq Require Import String Ascii Permutation.
From Verif Require Import Base BaseFacts Util_Model Inputs_Model Keys_Model.
Local Open Scope string_scope.
Local Open Scope list_scope.

(* C38, C39, C76 - C78, C108: keys of metrics, plots and attributions. *)

(** Keys whose parts were accepted by the constructors of SubKey and AggregationType. *)

Definition made_sub (s : sub_key) : Prop := exists c k t, mk_sub_key c k t = Ok s.

Definition made_agg (a : agg_type) : Prop := exists x y z, mk_agg_type x y z = Ok a.

Definition made (k : metric_key) : Prop :=
  (forall s, k_sub k = Some s -> made_sub s) /\ (forall a, k_agg k = Some a -> made_agg a).

(** A sub key says something, in numbers of 32 bits. *)

Definition fits32 (z : Z) : Prop := (- 2 ^ 31 <= z < 2 ^ 31)%Z.

Definition storable_sub (s : sub_key) : Prop :=
  (sk_class_id s <> None \/ sk_k s <> None \/ sk_top_k s <> None) /\
  (forall c, sk_class_id s = Some c -> fits32 c) /\
  (forall k, sk_k s = Some k -> fits32 (Z.of_nat k)) /\
  (forall t, sk_top_k s = Some t -> fits32 (Z.of_nat t)).

(** Exactly one kind of averaging is named, the others are left out. *)

Definition storable_agg (a : agg_type) : Prop :=
  In a [AggType (Some true) None None; AggType None (Some true) None; AggType None None (Some true)].

Definition storable (k : metric_key) : Prop :=
  (forall s, k_sub k = Some s -> storable_sub s) /\ (forall a, k_agg k = Some a -> storable_agg a).

Lemma int32_ok z y : int32 z = Ok y <-> z = y /\ fits32 z.
Proof.
  unfold int32, fits32. destruct (Z.leb_spec (- 2 ^ 31) z) as [L|L]; destruct (Z.ltb_spec z (2 ^ 31)) as [R|R]; cbn [andb]; split; intro E;
    first [discriminate E | injection E as <-; auto | destruct E as [<- _]; reflexivity | destruct E as [_ E]; exfalso; lia].
Qed.

Lemma opt_int32_ok o y : opt_int32 o = Ok y <-> o = y /\ (forall z, o = Some z -> fits32 z).
Proof.
  unfold opt_int32. destruct o as [z|].
  - destruct (int32 z) as [x|e] eqn:E; cbn [bind].
    + apply int32_ok in E. destruct E as [<- F]. split.
      * intro H. injection H as <-. split; auto. intros u Hu. injection Hu as <-. auto.
      * intros [<- _]. reflexivity.
    + split; [discriminate|]. intros [_ F]. assert (X : int32 z = Ok z) by (apply int32_ok; auto). congruence.
  - split; [intro H; injection H as <-; split; auto; discriminate|intros [<- _]; reflexivity].
Qed.

Lemma sub_to_proto_ok s pb : sub_key_to_proto s = Ok pb <->
  pb = PbSubKey (sk_class_id s) (option_map Z.of_nat (sk_k s)) (option_map Z.of_nat (sk_top_k s)) /\
  (forall c, sk_class_id s = Some c -> fits32 c) /\
  (forall k, sk_k s = Some k -> fits32 (Z.of_nat k)) /\
  (forall t, sk_top_k s = Some t -> fits32 (Z.of_nat t)).
Proof.
  unfold sub_key_to_proto.
  assert (M : forall o : option nat, (forall z, option_map Z.of_nat o = Some z -> fits32 z) <-> (forall k, o = Some k -> fits32 (Z.of_nat k))).
  { intros [n|]; cbn; split; intros H x Hx; try discriminate; injection Hx as <-; auto. }
  split.
  - intro H. destruct (opt_int32 (sk_class_id s)) as [a|] eqn:E1; cbn [bind] in H; [|discriminate].
    destruct (opt_int32 (option_map Z.of_nat (sk_k s))) as [b|] eqn:E2; cbn [bind] in H; [|discriminate].
    destruct (opt_int32 (option_map Z.of_nat (sk_top_k s))) as [d|] eqn:E3; cbn [bind] in H; [|discriminate].
    injection H as <-. apply opt_int32_ok in E1, E2, E3.
    destruct E1 as [<- F1], E2 as [<- F2], E3 as [<- F3]. rewrite M in F2, F3. auto.
  - intros (-> & F1 & F2 & F3). rewrite <- M in F2, F3.
    rewrite (proj2 (opt_int32_ok _ _) (conj eq_refl F1)). cbn [bind].
    rewrite (proj2 (opt_int32_ok _ _) (conj eq_refl F2)). cbn [bind].
    rewrite (proj2 (opt_int32_ok _ _) (conj eq_refl F3)). reflexivity.
Qed.

Lemma made_sub_again s : made_sub s ->
  mk_sub_key (sk_class_id s) (option_map Z.of_nat (sk_k s)) (option_map Z.of_nat (sk_top_k s)) = Ok s.
Proof.
  intros (c & k & t & E).
  assert (P : forall z, Z.ltb z 1 = false -> Z.of_nat (Z.to_nat z) = z) by (intros z Hz; apply Z.ltb_ge in Hz; lia).
  unfold mk_sub_key in E.
  destruct k as [k|], t as [t|], c as [c|]; try discriminate E; cbn [option_map] in E;
    repeat match type of E with context [Z.ltb ?z 1] => destruct (Z.ltb z 1) eqn:?; try discriminate E end;
    injection E as <-; cbn [sk_class_id sk_k sk_top_k option_map mk_sub_key]; rewrite ?P by auto;
    repeat match goal with H : Z.ltb _ 1 = false |- _ => rewrite H; clear H end; reflexivity.
Qed.

Lemma sub_from_proto_set c k t : (c <> None \/ k <> None \/ t <> None) ->
  sub_key_from_proto (PbSubKey c k t) = (let! s := mk_sub_key c k t in Ok (Some s)).
Proof. intro H. destruct c, k, t; try reflexivity. tauto. Qed.

Lemma sub_round_trip o : (forall s, o = Some s -> made_sub s) ->
  ((exists p, opt_sub_to_proto o = Ok p /\ opt_sub_from_proto p = Ok o) <->
   (forall s, o = Some s -> storable_sub s)).
Proof.
  intro M. destruct o as [s|].
  - specialize (M s eq_refl). unfold opt_sub_to_proto, opt_sub_from_proto. split.
    + intros (p & E & F) s' [= <-].
      destruct (sub_key_to_proto s) as [q|] eqn:Q; cbn [bind] in E; [|discriminate]. injection E as <-.
      apply sub_to_proto_ok in Q. destruct Q as [-> R]. split; [|exact R].
      destruct s as [c k t]. cbn [sk_class_id sk_k sk_top_k option_map] in F |- *.
      destruct c; [left; discriminate|]. destruct k; [right; left; discriminate|]. destruct t; [right; right; discriminate|].
      cbn in F. discriminate F.
    + intro H. destruct (H s eq_refl) as (P & R).
      rewrite (proj2 (sub_to_proto_ok s _) (conj eq_refl R)). cbn [bind]. eexists. split; [reflexivity|]. cbv beta iota.
      rewrite sub_from_proto_set.
      * rewrite (made_sub_again s M). reflexivity.
      * destruct s as [c k t]. cbn [sk_class_id sk_k sk_top_k] in P |- *.
        destruct c, k, t; cbn [option_map]; try (left; discriminate); try (right; left; discriminate); try (right; right; discriminate). tauto.
  - split; [intros _ s; discriminate|]. intros _. exists None. split; reflexivity.
Qed.

Lemma agg_round_trip o :
  (agg_from_proto (match option_map agg_to_proto o with Some p => p | None => None end) = Ok o <->
   (forall a, o = Some a -> storable_agg a)).
Proof.
  destruct o as [[x y z]|]; [|split; [intros _ a; discriminate|reflexivity]].
  unfold storable_agg. cbn [option_map]. split.
  - intros E a [= <-]. destruct x as [[]|], y as [[]|], z as [[]|]; cbn in E |- *; first [discriminate E | auto].
  - intro H. destruct (H _ eq_refl) as [<-|[<-|[<-|[]]]]; reflexivity.
Qed.

Lemma C38_metric_key_round_trip_pf :
  forall k, made k ->
    ((exists pb, key_to_proto k = Ok pb /\ key_from_proto pb = Ok k) <-> storable k).
Proof.
  intros [n m o s a w d] [Ms Ma]. cbn [k_sub k_agg] in Ms, Ma. unfold storable. cbn [k_sub k_agg].
  rewrite <- (sub_round_trip s Ms), <- (agg_round_trip a).
  unfold key_to_proto, key_from_proto. cbn [k_name k_model k_output k_sub k_agg k_weighted k_diff]. split.
  - intros (pb & E & F). destruct (opt_sub_to_proto s) as [p|] eqn:P; cbn [bind] in E; [|discriminate]. injection E as <-.
    cbn [pb_name pb_model pb_output pb_sub pb_aggregation pb_weighted pb_diff] in F.
    destruct (opt_sub_from_proto p) as [s'|] eqn:S'; cbn [bind] in F; [|discriminate].
    destruct (agg_from_proto _) as [a'|] eqn:A'; cbn [bind] in F; [|discriminate].
    injection F as -> ->. split; eauto.
  - intros [(p & P & F) A]. rewrite P. cbn [bind]. eexists. split; [reflexivity|].
    cbn [pb_name pb_model pb_output pb_sub pb_aggregation pb_weighted pb_diff]. rewrite F. cbn [bind]. rewrite A. reflexivity.
Qed.

Lemma C38_distinct_messages_pf :
  forall k k' pb, made k -> made k' -> storable k -> storable k' ->
    key_to_proto k = Ok pb -> key_to_proto k' = Ok pb -> k = k'.
Proof.
  intros k k' pb M M' S_ S' E E'.
  destruct (proj2 (C38_metric_key_round_trip_pf k M) S_) as (p & P & F).
  destruct (proj2 (C38_metric_key_round_trip_pf k' M') S') as (p' & P' & F'). congruence.
Qed.

(** A top-3 micro average of the candidate model. *)

Definition micro_top3 : metric_key :=
  MetricKey "precision" "candidate" "" (Some (SubKey None None (Some 3))) (Some (AggType (Some true) None None)) (Some true) true.

Lemma C38_micro_becomes_macro_refuted_pf :
  exists k k' pb,
    made k /\ made k' /\ k <> k' /\ option_map ag_micro (k_agg k) = Some (Some true) /\
    key_to_proto k = Ok pb /\ key_to_proto k' = Ok pb /\ key_from_proto pb = Ok k' /\
    option_map ag_macro (k_agg k') = Some (Some true).
Proof.
  exists (MetricKey "f1" "" "" None (Some (AggType (Some true) (Some false) None)) None false),
         (MetricKey "f1" "" "" None (Some (AggType None (Some true) None)) None false). eexists.
  split; [|split; [|split; [discriminate|]]].
  - split; [intros s; discriminate|intros a [= <-]; exists (Some true), (Some false), None; reflexivity].
  - split; [intros s; discriminate|intros a [= <-]; exists None, (Some true), None; reflexivity].
  - repeat split; reflexivity.
Qed.

Lemma C39_plot_key_round_trip_pf :
  forall k, made k ->
    ((exists pb, plot_key_to_proto k = Ok pb /\ plot_key_from_proto pb = Ok k) <->
     (forall s, k_sub k = Some s -> storable_sub s) /\ k_agg k = None /\ k_diff k = false).
Proof.
  intros [n m o s a w d] [Ms Ma]. cbn [k_sub k_agg k_diff] in *. rewrite <- (sub_round_trip s Ms).
  unfold plot_key_to_proto, plot_key_from_proto. cbn [k_name k_model k_output k_sub k_agg k_weighted k_diff]. split.
  - intros (pb & E & F). destruct (opt_sub_to_proto s) as [p|] eqn:P; cbn [bind] in E; [|discriminate]. injection E as <-.
    cbn [pp_name pp_model pp_output pp_sub pp_weighted] in F.
    destruct (opt_sub_from_proto p) as [s'|] eqn:S'; cbn [bind] in F; [|discriminate].
    injection F as -> <- <-. eauto.
  - intros ((p & P & F) & -> & ->). rewrite P. cbn [bind]. eexists. split; [reflexivity|].
    cbn [pp_name pp_model pp_output pp_sub pp_weighted]. rewrite F. reflexivity.
Qed.

Lemma C39_aggregation_dropped_refuted_pf :
  exists k k' pb, made k /\ made k' /\ storable k /\ storable k' /\ k <> k' /\
    k_agg k = Some (AggType (Some true) None None) /\ k_agg k' = None /\
    plot_key_to_proto k = Ok pb /\ plot_key_to_proto k' = Ok pb /\ plot_key_from_proto pb = Ok k'.
Proof.
  exists (MetricKey "roc" "" "" None (Some (AggType (Some true) None None)) None false),
         (MetricKey "roc" "" "" None None None false). eexists.
  split; [split; [intros s; discriminate|intros a [= <-]; exists (Some true), None, None; reflexivity]|].
  split; [split; intros s; discriminate|].
  split; [split; [intros s; discriminate|intros a [= <-]; left; reflexivity]|].
  split; [split; intros s; discriminate|].
  split; [discriminate|]. repeat split; reflexivity.
Qed.

Lemma C76_attributions_key_round_trip_pf :
  forall k, made k ->
    ((exists pb, attributions_key_to_proto k = Ok pb /\ attributions_key_from_proto pb = Ok k) <->
     (forall s, k_sub k = Some s -> storable_sub s) /\ k_agg k = None).
Proof.
  intros [n m o s a w d] [Ms Ma]. cbn [k_sub k_agg k_diff] in *. rewrite <- (sub_round_trip s Ms).
  unfold attributions_key_to_proto, attributions_key_from_proto. cbn [k_name k_model k_output k_sub k_agg k_weighted k_diff]. split.
  - intros (pb & E & F). destruct (opt_sub_to_proto s) as [p|] eqn:P; cbn [bind] in E; [|discriminate]. injection E as <-.
    cbn [pa_name pa_model pa_output pa_sub pa_weighted pa_diff] in F.
    destruct (opt_sub_from_proto p) as [s'|] eqn:S'; cbn [bind] in F; [|discriminate].
    injection F as -> <-. eauto.
  - intros ((p & P & F) & ->). rewrite P. cbn [bind]. eexists. split; [reflexivity|].
    cbn [pa_name pa_model pa_output pa_sub pa_weighted pa_diff]. rewrite F. reflexivity.
Qed.

Lemma C76_aggregation_dropped_refuted_pf :
  exists k k' pb, made k /\ storable k /\ k' <> k /\
    attributions_key_to_proto k = Ok pb /\ attributions_key_from_proto pb = Ok k'.
Proof.
  exists (MetricKey "mean" "" "" None (Some (AggType None (Some true) None)) None true),
         (MetricKey "mean" "" "" None None None true). eexists.
  split; [split; [intros s; discriminate|intros a [= <-]; exists None, (Some true), None; reflexivity]|].
  split; [split; [intros s; discriminate|intros a [= <-]; right; left; reflexivity]|].
  split; [discriminate|]. split; reflexivity.
Qed.

Lemma key_lt_never a b : key_lt a b <> Ok true.
Proof.
  unfold key_lt. destruct (_ && _ && _); [|discriminate].
  unfold weighted_lt. destruct (truthy (k_weighted a)), (truthy (k_weighted b)); cbn [bind andb]; discriminate.
Qed.

Lemma take_run_all {A} (lt : A -> A -> res bool) :
  (forall a b, lt a b <> Ok true) ->
  forall l x r, take_run lt false x l = Ok r -> r = (l, []).
Proof.
  intros N. induction l as [|y l IH]; intros x r E; cbn [take_run] in E.
  - injection E as <-. reflexivity.
  - destruct (lt y x) as [[]|] eqn:L; cbn [bind] in E; [destruct (N y x L)| |discriminate].
    cbn [Bool.eqb] in E. destruct (take_run lt false y l) as [q|] eqn:Q; cbn [bind] in E; [|discriminate].
    apply IH in Q. subst q. injection E as <-. reflexivity.
Qed.

Lemma sorted_never {A} (lt : A -> A -> res bool) :
  (forall a b, lt a b <> Ok true) -> forall l l', sorted lt l = Ok l' -> l' = l.
Proof.
  intros N l l'. unfold sorted. destruct l as [|x [|y t]]; intro E; try (injection E as <-; reflexivity).
  destruct (lt y x) as [[]|] eqn:L; cbn [bind] in E; [destruct (N y x L)| |discriminate].
  destruct (take_run lt false x (tl (x :: y :: t))) as [r|] eqn:R; cbn [bind] in E; [|discriminate].
  apply (take_run_all lt N) in R. subst r. cbn [fst snd foldM tl] in E. injection E as <-. reflexivity.
Qed.

Lemma take_run_ok {A} (lt : A -> A -> res bool) : forall l x,
  (forall a b, In a (x :: l) -> In b (x :: l) -> lt a b = Ok false) ->
  take_run lt false x l = Ok (l, []).
Proof.
  induction l as [|y l IH]; intros x H; cbn [take_run]; [reflexivity|].
  rewrite H by (cbn; auto). cbn [bind Bool.eqb]. rewrite IH; [reflexivity|].
  intros a b Ha Hb. apply H; right; auto.
Qed.

Lemma C77_sorting_is_listing_order_pf :
  forall l l', sorted key_lt l = Ok l' -> l' = l.
Proof. intros l l'. apply sorted_never. exact key_lt_never. Qed.

Lemma C77_order_not_canonical_refuted_pf :
  exists l l' s s', Permutation l l' /\ NoDup l /\ (forall k, In k l -> made k /\ storable k) /\
    sorted key_lt l = Ok s /\ sorted key_lt l' = Ok s' /\ s <> s' /\
    (forall c p i i', metric_computation_id c l p = Ok i -> metric_computation_id c l' p = Ok i' -> id_eqb i i' = false).
Proof.
  set (a := MetricKey "accuracy" "" "" None None (Some true) false).
  set (b := MetricKey "bleu" "" "" None None (Some true) false).
  exists [b; a], [a; b], [b; a], [a; b].
  split; [apply perm_swap|]. split; [repeat constructor; cbn; intuition discriminate|].
  split; [intros k [<-|[<-|[]]]; split; split; intros s; discriminate|].
  split; [reflexivity|]. split; [reflexivity|]. split; [discriminate|].
  intros c p i i' E F. injection E as <-. injection F as <-. unfold id_eqb. cbn. rewrite String.eqb_refl. reflexivity.
Qed.

Lemma C78_mixed_weighting_refuted_pf :
  exists l, NoDup l /\ length l = 2 /\ (forall k, In k l -> made k /\ storable k) /\ sorted key_lt l = Err TypeError.
Proof.
  exists [MetricKey "precision" "" "" (Some (SubKey None None (Some 3))) (Some (AggType (Some true) None None)) (Some false) false;
          MetricKey "accuracy" "" "" None None (Some true) false].
  split; [repeat constructor; cbn; intuition discriminate|]. split; [reflexivity|]. split; [|reflexivity].
  intros k [<-|[<-|[]]].
  - split.
    + split; [intros s [= <-]; exists None, None, (Some 3%Z); reflexivity|intros a [= <-]; exists (Some true), None, None; reflexivity].
    + split; [intros s [= <-]|intros a [= <-]; left; reflexivity].
      split; [right; right; discriminate|]. split; [discriminate|]. split; [discriminate|].
      intros t [= <-]. unfold fits32. split; reflexivity || discriminate.
  - split; split; intros s; discriminate.
Qed.

Lemma C78_same_weighting_partial_pf :
  forall w l, (forall k, In k l -> k_weighted k = w) -> sorted key_lt l = Ok l.
Proof.
  intros w l H.
  assert (F : forall a b, In a l -> In b l -> key_lt a b = Ok false).
  { intros a b Ha Hb. unfold key_lt. destruct (_ && _ && _); [|reflexivity].
    rewrite (H a Ha), (H b Hb). unfold weighted_lt. destruct (truthy w); reflexivity. }
  destruct l as [|x [|y t]]; [reflexivity|reflexivity|]. unfold sorted.
  rewrite F by (cbn; auto). cbn [bind]. rewrite (take_run_ok key_lt) by (cbn [tl]; auto). reflexivity.
Qed.

Lemma option_eqb_eq {A} (eqb : A -> A -> bool) : (forall a b, eqb a b = true <-> a = b) ->
  forall x y, option_eqb eqb x y = true <-> x = y.
Proof.
  intros H [x|] [y|]; cbn; split; intro E; try discriminate; auto.
  - apply H in E. congruence.
  - injection E as ->. apply H. reflexivity.
Qed.

Lemma sub_key_eqb_eq a b : sub_key_eqb a b = true <-> a = b.
Proof.
  unfold sub_key_eqb. rewrite !andb_true_iff, (option_eqb_eq Z.eqb Z.eqb_eq), !(option_eqb_eq Nat.eqb Nat.eqb_eq).
  destruct a, b; cbn. split; [intros [[-> ->] ->]; auto|intro E; injection E as -> -> ->; auto].
Qed.

Lemma agg_eqb_eq a b : agg_eqb a b = true <-> a = b.
Proof.
  unfold agg_eqb. rewrite !andb_true_iff, !(option_eqb_eq Bool.eqb Bool.eqb_true_iff).
  destruct a, b; cbn. split; [intros [[-> ->] ->]; auto|intro E; injection E as -> -> ->; auto].
Qed.

Lemma metric_key_eqb_eq a b : metric_key_eqb a b = true <-> a = b.
Proof.
  unfold metric_key_eqb. rewrite !andb_true_iff, !String.eqb_eq, (option_eqb_eq _ sub_key_eqb_eq),
    (option_eqb_eq _ agg_eqb_eq), (option_eqb_eq _ Bool.eqb_true_iff), Bool.eqb_true_iff.
  destruct a, b; cbn. split; [intros [[[[[[-> ->] ->] ->] ->] ->] ->]; auto|intro E; injection E as -> -> -> -> -> -> ->; repeat split; auto].
Qed.

Lemma list_eqb_eq {A} (eqb : A -> A -> bool) : (forall a b, eqb a b = true <-> a = b) ->
  forall x y, list_eqb eqb x y = true <-> x = y.
Proof.
  intros H. induction x as [|a x IH]; intros [|b y]; cbn; split; intro E; try discriminate; auto.
  - apply andb_true_iff in E. destruct E as [E F]. apply H in E. apply IH in F. congruence.
  - injection E as -> ->. apply andb_true_iff. split; [apply H|apply IH]; reflexivity.
Qed.

Lemma C108_aggregation_type_has_one_kind_pf :
  forall micro macro weighted : option bool,
    let two := (micro = Some true /\ macro = Some true) \/ (micro = Some true /\ weighted = Some true) \/
               (macro = Some true /\ weighted = Some true) in
    (two -> mk_agg_type micro macro weighted = Err ValueError) /\
    (~ two -> mk_agg_type micro macro weighted = Ok (AggType micro macro weighted)).
Proof.
  intros [[]|] [[]|] [[]|] two; split; intros T; try reflexivity; unfold two in T; exfalso;
    first [apply T; tauto | decompose [and or] T; discriminate].
Qed.

Lemma C108_sub_key_is_valid_pf :
  forall class_id k top_k,
    let valid := (forall x, k = Some x -> (1 <= x)%Z /\ top_k = None /\ class_id = None) /\
                 (forall x, top_k = Some x -> (1 <= x)%Z) in
    (valid -> mk_sub_key class_id k top_k = Ok (SubKey class_id (option_map Z.to_nat k) (option_map Z.to_nat top_k))) /\
    (~ valid -> mk_sub_key class_id k top_k = Err ValueError).
Proof.
  intros c k t valid. unfold mk_sub_key. split; intros V.
  - destruct V as [V1 V2]. destruct k as [k|], t as [t|], c as [c|];
      repeat match goal with H : forall x, Some ?a = Some x -> _ |- _ => specialize (H a eq_refl) end;
      repeat match goal with H : _ /\ _ |- _ => destruct H end; try discriminate;
      repeat match goal with |- context [Z.ltb ?a 1] => destruct (Z.ltb_spec a 1); [lia|] end; reflexivity.
  - destruct k as [k|], t as [t|], c as [c|]; try reflexivity;
      repeat match goal with |- context [Z.ltb ?a 1] => destruct (Z.ltb_spec a 1); [reflexivity|] end;
      exfalso; apply V; unfold valid; split; intros x X; inversion X; subst; repeat split; try lia; reflexivity.
Qed.

Lemma nth_error_firstn' {A} : forall n (l : list A) i, i < n -> nth_error (firstn n l) i = nth_error l i.
Proof. induction n as [|n IH]; intros l i L; [lia|]. destruct l as [|x l]; [destruct i; reflexivity|]. destruct i; [reflexivity|]. cbn [firstn nth_error]. apply IH. lia. Qed.

Lemma nth_error_skipn' {A} : forall n (l : list A) i, nth_error (skipn n l) i = nth_error l (n + i).
Proof. induction n as [|n IH]; intros l i; [reflexivity|]. destruct l as [|x l]; [destruct i; reflexivity|]. cbn [skipn Nat.add nth_error]. apply IH. Qed.

Section Order.
  Context {A : Type} (lt : A -> A -> res bool) (ltb : A -> A -> bool).
  Hypothesis total : forall a b, lt a b = Ok (ltb a b).
  Hypothesis asym : forall a b, ltb a b = true -> ltb b a = false.
  Hypothesis trans : forall a b c, ltb b a = false -> ltb c b = false -> ltb c a = false.

  Definition ascending (l : list A) : Prop := forall i j a b, nth_error l i = Some a -> nth_error l j = Some b -> i < j -> ltb b a = false.

  Lemma ascending_cons x l : ascending l -> (forall y, In y l -> ltb y x = false) -> ascending (x :: l).
  Proof.
    intros H X i j a b I J L. destruct j as [|j]; [lia|]. destruct i as [|i]; cbn [nth_error] in I, J.
    - injection I as <-. apply X. apply nth_error_In in J. exact J.
    - apply (H i j a b I J). lia.
  Qed.

  Lemma ascending_app l r : ascending l -> ascending r -> (forall x y, In x l -> In y r -> ltb y x = false) -> ascending (l ++ r).
  Proof.
    induction l as [|x l IH]; intros L R X; cbn [app]; [exact R|]. apply ascending_cons.
    - apply IH; [|exact R|intros a b I J; apply X; [right|]; assumption]. intros i j a b I J O. apply (L (S i) (S j) a b I J). lia.
    - intros y I. apply in_app_iff in I. destruct I as [I|I]; [|apply X; [left; reflexivity|exact I]].
      apply In_nth_error in I. destruct I as (n & I). apply (L 0 (S n) x y eq_refl I). lia.
  Qed.

  Lemma run_spec want : forall t x r rest, take_run lt want x t = Ok (r, rest) ->
    t = r ++ rest /\
    (want = false -> ascending (x :: r)) /\ (want = true -> ascending (rev (x :: r))).
  Proof.
    induction t as [|y t IH]; intros x r rest E; cbn [take_run] in E.
    - injection E as <- <-. split; [reflexivity|]. split; intros _ [|i] [|j] a b I J L; cbn in *; try lia; try discriminate; destruct j; discriminate.
    - rewrite total in E. cbn [bind] in E. destruct (Bool.eqb (ltb y x) want) eqn:B.
      + destruct (take_run lt want y t) as [[r' rest']|] eqn:R; [|discriminate]. cbn [bind fst snd] in E. injection E as <- <-.
        destruct (IH _ _ _ R) as (I1 & I2 & I3). apply Bool.eqb_prop in B. split; [cbn [app]; congruence|]. split; intros W.
        * apply ascending_cons; [auto|]. intros z Z. assert (A1 := I2 W). apply trans with (b := y); [congruence|].
          destruct Z as [->|Z]; [destruct (ltb z z) eqn:Q; [assert (Q2 := asym _ _ Q); congruence|reflexivity]|].
          apply In_nth_error in Z. destruct Z as (n & Z). apply (A1 0 (S n) y z eq_refl Z). lia.
        * cbn [rev]. apply ascending_app.
          -- exact (I3 W).
          -- intros [|i] [|j] a b I J L; cbn in *; try lia; try discriminate; destruct j; discriminate.
          -- intros a b I J. destruct J as [<-|[]]. apply trans with (b := y).
             ++ apply in_app_iff in I. destruct I as [I|[->|[]]]; [|destruct (ltb a a) eqn:Q; [assert (Q2 := asym _ _ Q); congruence|reflexivity]].
                assert (A1 := I3 W). cbn [rev] in A1. apply In_nth_error in I. destruct I as (n & I).
                assert (LN : n < length (rev r')) by (apply nth_error_Some; congruence).
                apply (A1 n (length (rev r')) a y); [rewrite nth_error_app1 by exact LN; exact I| |exact LN].
                rewrite nth_error_app2 by lia. rewrite Nat.sub_diag. reflexivity.
             ++ apply asym. congruence.
      + injection E as <- <-. split; [reflexivity|]. split; intros _ [|i] [|j] a b I J L; cbn in *; try lia; try discriminate; destruct j; discriminate.
  Qed.

  Lemma take_run_total want : forall t x, exists r rest, take_run lt want x t = Ok (r, rest).
  Proof.
    induction t as [|y t IH]; intros x; cbn [take_run]; [eauto|]. rewrite total. cbn [bind].
    destruct (Bool.eqb _ _); [|eauto]. destruct (IH y) as (r & rest & ->). cbn [bind]. eauto.
  Qed.

  Lemma bisect_spec pivot s : ascending s -> forall fuel l r, r - l < fuel -> l <= r -> r <= length s ->
    (forall i x, nth_error s i = Some x -> i < l -> ltb pivot x = false) ->
    (forall i x, nth_error s i = Some x -> r <= i -> ltb pivot x = true) ->
    exists i, bisect lt fuel pivot s l r = Ok i /\ i <= length s /\
      (forall j x, nth_error s j = Some x -> j < i -> ltb pivot x = false) /\
      (forall j x, nth_error s j = Some x -> i <= j -> ltb pivot x = true).
  Proof.
    intros AS. induction fuel as [|fuel IH]; intros l r F LR RS HL HR; [lia|]. cbn [bisect]. destruct (Nat.ltb_spec l r) as [L|L].
    - set (p := l + Nat.div (r - l) 2). assert (P : l <= p < r).
      { split; [unfold p; apply Nat.le_add_r|]. unfold p. assert (Nat.div (r - l) 2 < r - l) by (apply Nat.div_lt; lia). lia. }
      clearbody p. destruct (nth_error s p) as [x|] eqn:N; [|apply nth_error_None in N; lia]. rewrite total. cbn [bind].
      destruct (ltb pivot x) eqn:B.
      + apply IH; try lia; [exact HL|]. intros i y I J. destruct (Nat.eq_dec i p) as [->|D]; [congruence|].
        assert (Q := AS p i x y N I ltac:(lia)). destruct (ltb pivot y) eqn:E; [reflexivity|].
        assert (T := trans x y pivot Q E). congruence.
      + apply IH; try lia; [|exact HR]. intros i y I J. destruct (Nat.eq_dec i p) as [->|D]; [congruence|].
        assert (Q := AS i p y x I N ltac:(lia)). exact (trans y x pivot Q B).
    - exists l. split; [reflexivity|]. split; [lia|]. split; [exact HL|]. intros j x J I. apply (HR j x J). lia.
  Qed.

  Lemma insert_spec s pivot : ascending s -> exists s', binary_insert lt s pivot = Ok s' /\ Permutation (pivot :: s) s' /\ ascending s'.
  Proof.
    intros AS. unfold binary_insert.
    destruct (bisect_spec pivot s AS (S (length s)) 0 (length s)) as (i & E & L & B1 & B2); try lia.
    { intros i x I J. exfalso. assert (i < length s) by (apply nth_error_Some; congruence). lia. }
    rewrite E. cbn [bind]. eexists. split; [reflexivity|]. split.
    - rewrite <- (firstn_skipn i s) at 1. apply Permutation_middle.
    - assert (AF : ascending (firstn i s)).
      { intros j k a b J K O. assert (k < length (firstn i s)) by (apply nth_error_Some; congruence). rewrite firstn_length in H.
        rewrite nth_error_firstn' in J, K by lia. exact (AS j k a b J K O). }
      assert (AK : ascending (skipn i s)).
      { intros j k a b J K O. rewrite nth_error_skipn' in J, K. apply (AS _ _ a b J K). lia. }
      apply ascending_app; [exact AF| |].
      + apply ascending_cons; [exact AK|]. intros y Y. apply In_nth_error in Y. destruct Y as (n & Y). rewrite nth_error_skipn' in Y. apply asym. apply (B2 _ y Y). lia.
      + intros x y X Y. apply In_nth_error in X. destruct X as (n & X). assert (LN : n < length (firstn i s)) by (apply nth_error_Some; congruence).
        rewrite firstn_length in LN. rewrite nth_error_firstn' in X by lia. destruct Y as [<-|Y]; [apply (B1 n x X); lia|].
        apply In_nth_error in Y. destruct Y as (k & Y). rewrite nth_error_skipn' in Y. apply (AS n (i + k) x y X Y). lia.
  Qed.

End Order.

Lemma C77_sorting_by_an_order_pf :
  forall A (lt : A -> A -> res bool) ltb,
    (forall a b, lt a b = Ok (ltb a b)) -> (forall a b, ltb a b = true -> ltb b a = false) ->
    (forall a b c, ltb b a = false -> ltb c b = false -> ltb c a = false) ->
    forall l, exists l', sorted lt l = Ok l' /\ Permutation l l' /\
      forall i j a b, nth_error l' i = Some a -> nth_error l' j = Some b -> i < j -> ltb b a = false.
Proof.
  intros A lt ltb T AS TR l.
  assert (INS : forall rest s, ascending ltb s -> exists s', foldM (binary_insert lt) rest s = Ok s' /\ Permutation (rest ++ s) s' /\ ascending ltb s').
  { induction rest as [|y rest IH]; intros s S1; cbn [foldM]; [exists s; split; [reflexivity|]; split; [apply Permutation_refl|exact S1]|].
    destruct (insert_spec lt ltb T AS TR s y S1) as (s1 & E1 & P1 & A1). rewrite E1. cbn [bind]. destruct (IH s1 A1) as (s' & E' & P' & A').
    exists s'. split; [exact E'|]. split; [|exact A']. eapply Permutation_trans; [|exact P']. cbn [app].
    eapply Permutation_trans; [apply Permutation_middle|]. apply Permutation_app_head. exact P1. }
  destruct l as [|x [|y t]]; cbn [sorted].
  - exists []. split; [reflexivity|]. split; [constructor|]. intros [|i] j a b I; discriminate.
  - exists [x]. split; [reflexivity|]. split; [apply Permutation_refl|]. intros [|i] [|j] a b I J L; cbn in *; try lia; try discriminate; destruct j; discriminate.
  - rewrite T. cbn [bind tl]. destruct (take_run_total lt ltb T (ltb y x) (y :: t) x) as (r & rest & R). rewrite R. cbn [bind fst snd].
    destruct (run_spec lt ltb T AS TR _ _ _ _ _ R) as (E & R1 & R2). rewrite E.
    destruct (ltb y x) eqn:D.
    + destruct (INS rest (rev (x :: r)) (R2 eq_refl)) as (s' & E' & P' & A'). exists s'. split; [exact E'|]. split; [|exact A'].
      eapply Permutation_trans; [|exact P']. eapply Permutation_trans; [|apply Permutation_app_head; apply Permutation_rev].
      change (x :: r ++ rest) with ((x :: r) ++ rest). apply Permutation_app_comm.
    + destruct (INS rest (x :: r) (R1 eq_refl)) as (s' & E' & P' & A'). exists s'. split; [exact E'|]. split; [|exact A'].
      eapply Permutation_trans; [|exact P']. change (x :: r ++ rest) with ((x :: r) ++ rest). apply Permutation_app_comm.
Qed.
