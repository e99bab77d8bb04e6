(* Proofs of the theorems restated in Slicer_Properties.v. *)
From Coq Require Import String Sorting.Sorted.
From Verif Require Import Base BaseFacts Beam BeamFacts.
From Verif Require Import Slicer_Model Slicer_Spec Slicer_Proofs Pipeline_Model Pipeline_Proofs.
Local Open Scope string_scope.
Local Open Scope list_scope.

(* C01-C09, C86: slicing. *)

(* Data used by the examples: slice by "interest" for gender = "f". *)

Definition ex_proto := SlicingSpec ["interest"] [("gender", "f")].

Definition ex_spec := Spec ["interest"] [("gender", VStr "f")].

Definition ex_dict : fdict :=
  [("age", Some [VInt 5]); ("gender", Some [VBytes "f"]);
   ("interest", Some [VBytes "knitting"; VBytes "games"; VBytes "knitting"])].

Definition no_repr : Qc -> string := fun _ => "".

Definition all_utf8 : string -> bool := fun _ => true.

Lemma C01_slices_exact_pf :
  forall float_repr valid_utf8 proto sp ds dflt,
    NoDup (map fst (sp_values proto)) ->
    mk_spec proto = Ok sp ->
    columns_utf8 valid_utf8 (columns sp) ds dflt ->
    exists ks,
      generate_slices float_repr valid_utf8 sp ds dflt = Ok ks /\
      (* soundness: every produced key is a matching combination, names ascending *)
      (forall k, In k ks ->
         fixed_hold (render float_repr) (features sp) ds dflt /\
         slice_of (columns sp) (features sp) ds dflt k) /\
      (* completeness: every matching combination is produced *)
      (fixed_hold (render float_repr) (features sp) ds dflt ->
         forall k, slice_of (columns sp) (features sp) ds dflt k ->
         exists k', In k' ks /\ same_key k k') /\
      (* nothing is produced when a fixed value or a column is missing *)
      ((~ fixed_hold (render float_repr) (features sp) ds dflt
        \/ exists c, In c (columns sp) /\ ~ present ds dflt c) -> ks = []) /\
      (* each key once, when no column mixes str and bytes *)
      ((forall c s, In c (columns sp) ->
          has_value ds dflt c (VStr s) -> has_value ds dflt c (VBytes s) -> False) -> NoDup ks).
Proof.
  intros float_repr valid_utf8 proto sp ds dflt NP MK U.
  destruct (mk_spec_wf float_repr valid_utf8 proto sp NP MK) as [W _].
  assert (exists ks, generate_slices float_repr valid_utf8 sp ds dflt = Ok ks) as [ks E].
  { destruct (generate_cases float_repr valid_utf8 sp ds dflt U) as [[E _]|[_ [vss [_ E]]]]; eauto. }
  exists ks. split; auto. split; [|split; [|split]].
  - intros k Hk. eapply generate_sound; eauto.
  - intros FH k SO. destruct (generate_complete float_repr valid_utf8 sp ds dflt k W U FH SO) as [ks' [k' [E' [H1 H2]]]].
    rewrite E in E'. inversion E'; subst. eauto.
  - intros H. destruct ks as [|k ks]; auto. exfalso.
    destruct (generate_sound float_repr valid_utf8 sp ds dflt _ k W U E (or_introl eq_refl)) as [FH [_ [HN HV]]].
    destruct H as [H|[c [Hc H]]]; auto.
    assert (In c (map fst k)) as Hk by (apply HN; auto).
    apply in_map_iff in Hk. destruct Hk as [[c' v] [Ec Hk]]. simpl in Ec. subst c'.
    destruct (HV c v Hk) as [Hf|[_ [raw [Hr _]]]].
    + destruct W as [_ [_ DJ]]. apply (DJ c Hc). change c with (fst (c, v)). apply in_map; auto.
    + apply H. eapply has_value_present; eauto.
  - intro M. eapply generate_NoDup; eauto.
Qed.

Lemma C02_generated_applicable_pf :
  forall float_repr valid_utf8 proto sp ds dflt ks k,
    NoDup (map fst (sp_values proto)) ->
    mk_spec proto = Ok sp ->
    columns_utf8 valid_utf8 (columns sp) ds dflt ->
    generate_slices float_repr valid_utf8 sp ds dflt = Ok ks -> In k ks ->
    is_slice_applicable sp k = true.
Proof.
  intros float_repr valid_utf8 proto sp ds dflt ks k NP MK U E Hk.
  destruct (mk_spec_wf float_repr valid_utf8 proto sp NP MK) as [W T].
  exact (generated_applicable float_repr valid_utf8 sp ds dflt ks k W T U E Hk).
Qed.

Lemma C02_applicable_characterised_pf :
  forall proto sp k,
    NoDup (map fst (sp_values proto)) ->
    mk_spec proto = Ok sp ->
    (is_slice_applicable sp k = true <->
     Permutation (map fst k) (columns sp ++ map fst (features sp)) /\
     (forall n v w, In (n, v) k -> In (n, w) (features sp) -> same_value (to_type v) w)).
Proof.
  intros proto sp k NP MK. destruct (mk_spec_wf no_repr all_utf8 proto sp NP MK) as [[NC [NF DJ]] _].
  unfold is_slice_applicable. rewrite (applicable_loop_spec k) by (repeat split; auto).
  split; intros [P H]; split; auto.
  - intros n v w Hk Hf. destruct (H n v Hk) as [w' [Hw' Hs]].
    { change n with (fst (n, w)). apply in_map; auto. }
    apply (dget_In_NoDup String.eqb string_eqb_eq) in Hw'; auto.
    apply (dget_In_NoDup String.eqb string_eqb_eq) in Hf; auto. congruence.
  - intros n v Hk Hf. apply in_map_iff in Hf. destruct Hf as [[m w] [E Hf]]. simpl in E. subst m.
    exists w. split; auto. eapply H; eauto.
Qed.

Lemma C03_text_value_selects_refuted_pf :
  exists proto sp (d : fdict) n s,
    mk_spec proto = Ok sp /\ sp_keys proto = [] /\ sp_values proto = [(n, s)] /\
    has_value [d] None n (VStr s) /\
    forall float_repr valid_utf8, generate_slices float_repr valid_utf8 sp [d] None = Ok [].
Proof.
  exists (SlicingSpec [] [("zip", "02139")]), (Spec [] [("zip", VInt 2139)]),
    [("zip", Some [VStr "02139"])], "zip", "02139".
  repeat split; try reflexivity.
  left. eexists; exists [VStr "02139"]. split; [left; reflexivity|]. split; [reflexivity|left; reflexivity].
Qed.

Lemma C03_bytes_value_selects_refuted_pf :
  exists proto sp (d : fdict) n s,
    mk_spec proto = Ok sp /\ sp_keys proto = [] /\ sp_values proto = [(n, s)] /\
    has_value [d] None n (VBytes s) /\
    forall float_repr valid_utf8, generate_slices float_repr valid_utf8 sp [d] None = Ok [].
Proof.
  exists (SlicingSpec [] [("age", "42")]), (Spec [] [("age", VInt 42)]),
    [("age", Some [VBytes "42"])], "age", "42".
  repeat split; try reflexivity.
  left. eexists; exists [VBytes "42"]. split; [left; reflexivity|]. split; [reflexivity|left; reflexivity].
Qed.

Lemma C03_text_value_selects_partial_pf :
  forall float_repr valid_utf8 n s ds dflt raw,
    py_int s = None -> py_float s = None ->
    has_value ds dflt n raw -> text_of raw = Some s ->
    exists sp, mk_spec (SlicingSpec [] [(n, s)]) = Ok sp /\
      generate_slices float_repr valid_utf8 sp ds dflt = Ok [[(n, VStr s)]].
Proof.
  intros float_repr valid_utf8 n s ds dflt raw HI HF HV HT.
  assert (E : to_type (VStr s) = VStr s) by (simpl; rewrite HI, HF; destruct (has_dot s); reflexivity).
  exists (Spec [] [(n, VStr s)]). split.
  - unfold mk_spec. simpl sp_keys. simpl sp_values. cbn [map existsb fst snd dedup dedup_from memb orb].
    rewrite E. reflexivity.
  - destruct (generate_cases float_repr valid_utf8 (Spec [] [(n, VStr s)]) ds dflt) as [[_ [H|[c [[] _]]]]|[_ [vss [F G]]]].
    + intros c s' [].
    + exfalso. apply H. intros m v [X|[]]. inversion X; subst.
      exists raw. split; auto. destruct raw; simpl in HT; inversion HT; subst.
      * left; left; auto.
      * right; left; eauto.
    + rewrite G. simpl. reflexivity.
Qed.

Lemma C04_fanout_once_pf :
  forall (X : Type) float_repr valid_utf8 sps ds dflt pre keys (x : X),
    extract_slice_keys float_repr valid_utf8 ds dflt sps pre = Ok keys ->
    (* every delivery is to a key generated by a spec, or already attached *)
    (forall k y, In (k, y) (fanout keys x) -> y = x /\
       (In k pre \/ exists sp l, In sp sps /\
          generate_slices float_repr valid_utf8 sp ds dflt = Ok l /\ In k l)) /\
    (* every such key gets a delivery (up to Python equality of keys) *)
    (forall k, (In k pre \/ exists sp l, In sp sps /\
          generate_slices float_repr valid_utf8 sp ds dflt = Ok l /\ In k l) ->
       exists k', In (k', x) (fanout keys x) /\ same_key k k') /\
    (* no two deliveries to the same key *)
    ForallOrdPairs (fun a b => ~ same_key (fst b) (fst a)) (fanout keys x).
Proof.
  intros X float_repr valid_utf8 sps ds dflt pre keys x E.
  unfold extract_slice_keys in E.
  destruct (get_slices float_repr valid_utf8 ds dflt sps) as [ks|] eqn:G; [|discriminate].
  simpl in E. inversion E; subst keys. clear E.
  pose proof (get_slices_app float_repr valid_utf8 ds dflt sps ks G) as GA.
  split; [|split].
  - intros k y H. unfold fanout in H. apply in_map_iff in H. destruct H as [k' [Hk H]]. inversion Hk; subst.
    split; auto. apply dedup_sub in H. apply dedup_sub in H. apply in_app_iff in H.
    destruct H as [H|H]; auto. right. apply GA; auto.
  - intros k H. assert (In k (ks ++ pre)) as Hin.
    { apply in_app_iff. destruct H as [H|H]; auto. left. apply GA; auto. }
    destruct (dedup_rep key_eqb key_eqb_refl _ k Hin) as [k1 [H1 E1]].
    destruct (dedup_rep key_eqb key_eqb_refl _ k1 H1) as [k2 [H2 E2]].
    exists k2. split; [unfold fanout; apply in_map_iff; eauto|].
    apply key_eqb_same in E1. apply key_eqb_same in E2. clear - E1 E2.
    revert k2 E2. induction E1 as [|a b k k1 [Ha Hb] E1 IH]; intros k2 E2; inversion E2 as [|? c ? ? [Hc Hd]]; subst; constructor.
    + split; [congruence|eapply same_trans; eauto].
    + apply IH; auto.
  - unfold fanout. set (l := dedup key_eqb (ks ++ pre)). pose proof (dedup_pairs key_eqb l) as P.
    induction P as [|a m Ha P IH]; simpl; constructor; auto.
    rewrite Forall_forall in *. intros [b y] Hb. apply in_map_iff in Hb. destruct Hb as [b' [Eb Hb]].
    inversion Eb; subst. simpl. intro S. apply key_eqb_same in S. rewrite Ha in S; auto. discriminate.
Qed.

Lemma C05_slice_metrics_exact_pf :
  forall (X A O : Type) float_repr valid_utf8
         (c : combiner (example X) A O) (metric : list (example X) -> O)
         protos sps xs kvs out,
    (forall p, In p protos -> NoDup (map fst (sp_values p))) ->
    mapM mk_spec protos = Ok sps ->
    (forall sp n v, In sp sps -> In (n, v) (features sp) -> plain v) ->
    (forall x, In x xs -> clean valid_utf8 sps x) ->
    (forall s, outcome c s = metric (inputs s)) ->
    (forall l l', Permutation l l' -> metric l = metric l') ->
    keyed_examples float_repr valid_utf8 sps xs = Ok kvs ->
    per_key skey_eqb c kvs out ->
    NoDup (map fst out) /\
    (forall k, In k (map fst out) <-> exists x, In x xs /\ in_slice float_repr sps x k) /\
    (forall k o, In (k, o) out ->
       exists p : example X -> bool,
         (forall x, In x xs -> (p x = true <-> in_slice float_repr sps x k)) /\
         o = metric (filter p xs)).
Proof.
  intros X A O float_repr valid_utf8 c metric protos sps xs kvs out NP MK PF C HM HP E PK.
  apply (pipeline_exact float_repr valid_utf8 c metric sps xs kvs out); auto.
  clear - NP MK. revert sps MK. induction protos as [|p protos IH]; simpl; intros sps MK sp Hs.
  - inversion MK; subst. destruct Hs.
  - destruct (mk_spec p) as [sp0|] eqn:E0; [|discriminate]. simpl in MK.
    destruct (mapM mk_spec protos) as [t|] eqn:E1; [|discriminate]. simpl in MK. inversion MK; subst.
    destruct Hs as [Hs|Hs].
    + subst. eapply (mk_spec_wf no_repr all_utf8 p); auto. apply NP; left; auto.
    + eapply IH; eauto. intros; apply NP; right; auto.
Qed.

(** A pipeline run meeting every hypothesis: two examples, slices by colour and
    overall, counting examples, with a two-bundle schedule. *)

Definition c05_xs : list (example nat) :=
  [Example [[("colour", Some [VBytes "red"])]] None 1;
   Example [[("colour", Some [VBytes "blue"; VBytes "red"])]] None 2].

Lemma C06_small_slices_hidden_pf :
  forall (X V A : Type) (kvs : list (skey * X)) (c : combiner X A V) values counts (err : V) (min_size : Z),
    per_key skey_eqb c kvs values ->
    per_key skey_eqb count_combiner kvs counts ->
    exists out,
      filter_out_slices skey_eqb (fun k => match k with [] => true | _ => false end)
        err min_size values counts = Ok out /\
      NoDup (map fst out) /\
      (forall k, In k (map fst out) <-> In k (map fst values)) /\
      forall k v, In (k, v) out ->
        (k <> [] /\ (Z.of_nat (length (values_of skey_eqb k kvs)) < min_size)%Z /\ v = err) \/
        ((k = [] \/ (min_size <= Z.of_nat (length (values_of skey_eqb k kvs)))%Z) /\ In (k, v) values).
Proof.
  intros X V A kvs c values counts err min_size [NV [HKV HV]] [NC [HKC HC]].
  assert (CNT : forall k n, In (k, n) counts -> n = Z.of_nat (length (values_of skey_eqb k kvs))).
  { intros k n H. destruct (HC k n H) as [s [P E]]. rewrite <- E, count_spec.
    f_equal. apply Permutation_length; auto. }
  destruct (filter_out_spec skey_eqb (fun k => match k with [] => true | _ => false end) err min_size
     (fun a b => skey_eqb_eq a b) values counts NV NC) as [out [E [N H]]].
  { intros k v Hk. assert (In k (map fst counts)) as Hin.
    { apply HKC, HKV. change k with (fst (k, v)). apply in_map; auto. }
    apply in_map_iff in Hin. destruct Hin as [[k' n] [Ek Hn]]. simpl in Ek. subst. eauto. }
  exists out. split; auto. split; auto. split.
  - intro k. split; intro Hin; apply in_map_iff in Hin; destruct Hin as [[k' v] [Ek Hk]]; simpl in Ek; subst k'.
    + apply H in Hk. destruct Hk as [v0 [n [H1 _]]]. change k with (fst (k, v0)). apply in_map; auto.
    + assert (In k (map fst counts)) as Hin.
      { apply HKC, HKV. change k with (fst (k, v)). apply in_map; auto. }
      apply in_map_iff in Hin. destruct Hin as [[k' n] [Ek Hn]]. simpl in Ek. subst k'.
      apply in_map_iff. exists (k, anonymised (fun k => match k with [] => true | _ => false end) err min_size k v n).
      split; auto. apply H. eauto.
  - intros k v Hk. apply H in Hk. destruct Hk as [v0 [n [H1 [H2 H3]]]].
    apply CNT in H2. subst n. unfold anonymised in H3. destruct k as [|e k].
    + subst. right. auto.
    + destruct (Z.leb_spec min_size (Z.of_nat (length (values_of skey_eqb (e :: k) kvs)))).
      * subst. right. auto.
      * subst. left. split; [discriminate|]. auto.
Qed.

(** Refuted: counts exist only for single slices, so any cross slice value makes
    the filter raise IndexError (here keys are single keys or pairs). *)

Inductive any_key := Single (k : skey) | Cross (b c : skey).

Definition any_eqb (a b : any_key) : bool :=
  match a, b with
  | Single x, Single y => skey_eqb x y
  | Cross x y, Cross x' y' => skey_eqb x x' && skey_eqb y y'
  | _, _ => false
  end.

Definition any_overall (k : any_key) : bool := match k with Single [] => true | _ => false end.

Lemma C07_min_size_with_cross_slices_refuted_pf :
  exists (values : list (any_key * Z)) (counts : list (any_key * Z)) err min_size,
    (* the counts are those of all single slices present *)
    (forall k v, In (Single k, v) values -> exists n, In (Single k, n) counts) /\
    (* the cross slice compares two slices that are large enough *)
    (forall b c v, In (Cross b c, v) values ->
       exists nb nc, In (Single b, nb) counts /\ In (Single c, nc) counts /\
                     (min_size <= nb)%Z /\ (min_size <= nc)%Z) /\
    filter_out_slices any_eqb any_overall err min_size values counts = Err IndexError.
Proof.
  exists [(Single [], 1%Z); (Single [("c", VStr "red")], 2%Z); (Cross [] [("c", VStr "red")], (-1)%Z)],
    [(Single [], 50%Z); (Single [("c", VStr "red")], 20%Z)], 0%Z, 2%Z.
  split; [|split].
  - intros k v [H|[H|[H|[]]]]; inversion H; subst; eexists; simpl; eauto.
  - intros b c v [H|[H|[H|[]]]]; inversion H; subst. exists 50%Z, 20%Z. simpl. repeat split; auto; lia.
  - vm_compute. reflexivity.
Qed.

Lemma C07_min_size_crashes_on_every_cross_slice_pf :
  forall (values : list (any_key * Z)) (counts : list (any_key * Z)) err min_size b c v,
    In (Cross b c, v) values ->
    (forall k n, In (k, n) counts -> exists s, k = Single s) ->
    filter_out_slices any_eqb any_overall err min_size values counts = Err IndexError.
Proof.
  intros values counts err min_size b c v Hin HC. unfold filter_out_slices. cbv zeta.
  assert (AE : forall a b, any_eqb a b = true <-> a = b).
  { intros [x|x y] [x'|x' y']; simpl; try (split; discriminate).
    - rewrite skey_eqb_eq. split; [congruence|intro H; inversion H; auto].
    - rewrite andb_true_iff, !skey_eqb_eq. split; [intros [? ?]; congruence|intro H; inversion H; auto]. }
  assert (K : In (Cross b c) (dedup any_eqb (map fst values ++ map fst counts))).
  { apply dedup_In; auto. apply in_app_iff. left. change (Cross b c) with (fst (Cross b c, v)). apply in_map; auto. }
  revert K. generalize (dedup any_eqb (map fst values ++ map fst counts)) as keys.
  assert (NOERR : forall k (acc : list (any_key * Z)),
    (exists l, (let! o := filter_small err min_size (any_overall k)
              (map snd (filter (fun kv => any_eqb k (fst kv)) values))
              (map snd (filter (fun kv => any_eqb k (fst kv)) counts)) in
     Ok (match o with Some v => acc ++ [(k, v)] | None => acc end)) = Ok l) \/
    (let! o := filter_small err min_size (any_overall k)
              (map snd (filter (fun kv => any_eqb k (fst kv)) values))
              (map snd (filter (fun kv => any_eqb k (fst kv)) counts)) in
     Ok (match o with Some v => acc ++ [(k, v)] | None => acc end)) = Err IndexError).
  { intros k acc. unfold filter_small.
    destruct (map snd (filter (fun kv => any_eqb k (fst kv)) values)); simpl; [left; eauto|].
    destruct (any_overall k); simpl; [left; eauto|].
    destruct (map snd (filter (fun kv => any_eqb k (fst kv)) counts)); simpl; [right; auto|].
    destruct (Z.leb min_size z0); simpl; left; eauto. }
  match goal with |- context [foldM ?f _ _] => set (step := f) end.
  enough (G : forall keys acc, In (Cross b c) keys -> foldM step keys acc = Err IndexError) by (intros; apply G; auto).
  induction keys as [|k keys IH]; cbn [foldM]; intros acc K; [destruct K|]. unfold step at 1.
  destruct (NOERR k acc) as [[l E]|E].
  - rewrite E. simpl. destruct K as [K|K]; [|apply IH; auto].
    subst k. exfalso. revert E. unfold filter_small.
    assert (C0 : map snd (filter (fun kv => any_eqb (Cross b c) (fst kv)) counts) = []).
    { clear - HC AE. induction counts as [|[k n] counts IH]; simpl; auto.
      destruct (HC k n (or_introl eq_refl)) as [s Es]. subst k. simpl.
      apply IH. intros; eapply HC; right; eauto. }
    rewrite C0.
    destruct (map snd (filter (fun kv => any_eqb (Cross b c) (fst kv)) values)) eqn:V.
    + exfalso. assert (In v (map snd (filter (fun kv => any_eqb (Cross b c) (fst kv)) values))) as X.
      { change v with (snd (Cross b c, v)). apply in_map. apply filter_In. split; auto. apply AE. reflexivity. }
      rewrite V in X. destruct X.
    + simpl. discriminate.
  - rewrite E. reflexivity.
Qed.

(** Slice keys made of text, 64-bit integers and floats representable in the
    file format survive a round trip; so do cross slice keys. *)

Definition storable (f32 : Qc -> Qc) (k : skey) : Prop :=
  forall n v, In (n, v) k ->
    match v with
    | VStr _ => True
    | VBytes _ => False (* slice keys hold decoded text, see C01 *)
    | VInt z => (- 2 ^ 63 <= z < 2 ^ 63)%Z
    | VFloat q => f32 q = q
    end.

Lemma storable_round f32 k : storable f32 k ->
  exists p, serialize_slice_key f32 k = Ok p /\ deserialize_slice_key p = Ok k.
Proof.
  intro H. destruct (serialize_round f32 k) as [p [E D]].
  - intros n z Hin. specialize (H _ _ Hin). simpl in H. unfold int64_ok.
    rewrite andb_true_iff, Z.leb_le, Z.ltb_lt. exact H.
  - exists p. split; auto. rewrite D. f_equal.
    clear D E. induction k as [|[n v] k IH]; simpl; auto. f_equal.
    + f_equal. specialize (H n v (or_introl eq_refl)). destruct v; simpl in *; auto; [contradiction|congruence].
    + apply IH. intros n' v' Hin. apply (H n' v'). right; auto.
Qed.

Lemma C08_slice_key_round_trip_pf :
  forall f32 k, storable f32 k ->
    exists p, serialize_slice_key f32 k = Ok p /\ deserialize_slice_key p = Ok k.
Proof. exact storable_round. Qed.

Lemma C08_cross_slice_key_round_trip_pf :
  forall f32 b c, storable f32 b -> storable f32 c ->
    exists p, serialize_cross f32 (b, c) = Ok p /\ deserialize_cross p = Ok (b, c).
Proof.
  intros f32 b c Hb Hc.
  destruct (storable_round f32 b Hb) as [pb [E1 D1]].
  destruct (storable_round f32 c Hc) as [pc [E2 D2]].
  exists (pb, pc). unfold serialize_cross, deserialize_cross. simpl.
  rewrite E1, E2, D1, D2. auto.
Qed.

Lemma C08_float_precision_refuted_pf :
  forall f32, f32 (Q2Qc (1#10)) = Q2Qc (13421773 # 134217728) ->
  exists k k' p, serialize_slice_key f32 k = Ok p /\ deserialize_slice_key p = Ok k' /\ k <> k'.
Proof.
  intros f32 E.
  exists [("score", VFloat (Q2Qc (1#10)))], [("score", VFloat (f32 (Q2Qc (1#10))))],
         [SingleSliceKey "score" (Some (FloatValue (f32 (Q2Qc (1#10)))))].
  split; [reflexivity|]. split; [reflexivity|].
  rewrite E. intro H. inversion H.
Qed.

Lemma C09_key_types_never_confused_pf :
  (forall k, is_cross_slice_key (key_obj k) = Ok false) /\
  (forall b c, is_cross_slice_key (cross_obj (b, c)) = Ok true).
Proof.
  unfold is_cross_slice_key. split; intros.
  - rewrite key_type_single. reflexivity.
  - rewrite key_type_cross. reflexivity.
Qed.

(** The slicing specs an evaluation mentions: its own, and those of its cross slicing specs. *)

Definition mentioned (slicing : list slicing_spec) (cross : list cross_spec) (p : slicing_spec) : Prop :=
  In p slicing \/ exists cs, In cs cross /\ (p = cs_base cs \/ In p (cs_specs cs)).

(** The same columns and the same feature values (up to Python's ==). *)

Definition same_slices (a b : spec) : Prop :=
  (forall c, In c (columns a) <-> In c (columns b)) /\
  (forall f, In f (features a) -> exists g, In g (features b) /\ pair_eqb f g = true) /\
  (forall g, In g (features b) -> exists f, In f (features a) /\ pair_eqb g f = true).

Lemma memb_exists {X} (eqb : X -> X -> bool) x l : memb eqb x l = true <-> exists y, In y l /\ eqb x y = true.
Proof.
  induction l as [|y l IH]; cbn [memb]; [split; [discriminate|intros (? & [] & _)]|]. rewrite orb_true_iff, IH. split.
  - intros [H|(z & ? & ?)]; [exists y; split; [left|]; auto|exists z; split; [right|]; auto].
  - intros (z & [<-|H] & E); [auto|right; exists z; auto].
Qed.

Lemma spec_eqb_same a b : spec_eqb a b = true -> same_slices a b.
Proof.
  unfold spec_eqb, subset. rewrite !andb_true_iff, !forallb_forall. intros (((A & B) & C) & D).
  split; [|split].
  - intros c. split; intros H; [apply A in H|apply B in H]; apply memb_exists in H; destruct H as (x & X & E); apply String.eqb_eq in E; subst; exact X.
  - intros f F. apply C in F. apply memb_exists in F. exact F.
  - intros f F. apply D in F. apply memb_exists in F. exact F.
Qed.

Lemma pair_eqb_refl x : pair_eqb x x = true.
Proof. unfold pair_eqb. rewrite String.eqb_refl. apply py_eqb_refl. Qed.

Lemma same_slices_refl a : same_slices a a.
Proof. split; [reflexivity|]. split; intros f F; exists f; split; auto using pair_eqb_refl. Qed.

(** Going through protos [ps] starting with [acc] *)

Lemma add_specM_all ps : forall acc r, foldM add_specM ps acc = Ok r ->
  (forall sp, In sp acc -> In sp r) /\
  (forall p, In p ps -> exists sp sp', mk_spec p = Ok sp /\ In sp' r /\ same_slices sp sp') /\
  (forall sp, In sp r -> In sp acc \/ exists p, In p ps /\ mk_spec p = Ok sp).
Proof.
  induction ps as [|p ps IH]; intros acc r H; cbn [foldM] in H.
  - injection H as <-. split; [auto|]. split; [intros ? []|auto].
  - unfold add_specM at 1 in H. destruct (mk_spec p) as [sp|] eqn:M; [|discriminate]. cbn [bind] in H.
    destruct (IH _ _ H) as (A & B & C). unfold add_spec in *. destruct (memb spec_eqb sp acc) eqn:E.
    + split; [exact A|]. split.
      * intros q [<-|Q]; [|apply B, Q]. apply memb_exists in E. destruct E as (x & X & E). exists sp, x.
        split; [exact M|]. split; [apply A, X|apply spec_eqb_same, E].
      * intros x X. destruct (C x X) as [Y|(q & Q & Y)]; [auto|right; exists q; split; [right|]; auto].
    + split; [intros x X; apply A, in_or_app; auto|]. split.
      * intros q [<-|Q]; [|apply B, Q]. exists sp, sp. split; [exact M|]. split; [apply A, in_or_app; right; left; reflexivity|apply same_slices_refl].
      * intros x X. destruct (C x X) as [Y|(q & Q & Y)]; [|right; exists q; split; [right|]; auto].
        apply in_app_or in Y. destruct Y as [Y|[<-|[]]]; [auto|]. right. exists p. split; [left|]; auto.
Qed.

Lemma C86_specs_used_pf :
  forall (slicing : list slicing_spec) (cross : list cross_spec) (used : list spec),
    config_specs slicing cross = Ok used ->
    (forall p, mentioned slicing cross p ->
       exists sp sp', mk_spec p = Ok sp /\ In sp' used /\ same_slices sp sp') /\
    (forall sp, In sp used ->
       (exists p, mentioned slicing cross p /\ mk_spec p = Ok sp) \/
       slicing = [] /\ cross = [] /\ sp = Spec [] []) /\
    used <> [].
Proof.
  intros slicing cross used H. unfold config_specs in H.
  destruct (mapM mk_spec slicing) as [base|] eqn:B; [|discriminate]. cbn [bind] in H.
  destruct (foldM add_cross cross base) as [all|] eqn:F; [|discriminate]. cbn [bind] in H. injection H as <-.
  assert (BB : forall ss bs, mapM mk_spec ss = Ok bs -> (forall p, In p ss -> exists sp, mk_spec p = Ok sp /\ In sp bs) /\ (forall sp, In sp bs -> exists p, In p ss /\ mk_spec p = Ok sp)).
  { induction ss as [|s ss IH]; intros bs M; cbn [mapM] in M.
    - injection M as <-. split; intros ? [].
    - destruct (mk_spec s) as [sp|] eqn:E; [|discriminate]. cbn [bind] in M. destruct (mapM mk_spec ss) as [bs'|]; [|discriminate]. injection M as <-.
      destruct (IH bs' eq_refl) as [X Y]. split.
      + intros p [<-|P]; [exists sp; split; [auto|left; auto]|]. destruct (X p P) as (x & ? & ?). exists x. split; [auto|right; auto].
      + intros x [<-|P]; [exists s; split; [left|]; auto|]. destruct (Y x P) as (q & ? & ?). exists q. split; [right|]; auto. }
  destruct (BB slicing base B) as [B1 B2]. clear BB.
  assert (FF : (forall sp, In sp base -> In sp all) /\
    (forall cs p, In cs cross -> p = cs_base cs \/ In p (cs_specs cs) -> exists sp sp', mk_spec p = Ok sp /\ In sp' all /\ same_slices sp sp') /\
    (forall sp, In sp all -> In sp base \/ exists cs p, In cs cross /\ (p = cs_base cs \/ In p (cs_specs cs)) /\ mk_spec p = Ok sp)).
  { clear B B1 B2. revert base F. induction cross as [|cs cross IH]; intros base F; cbn [foldM] in F.
    - injection F as <-. split; [auto|]. split; [intros ? ? []|auto].
    - destruct (add_cross base cs) as [acc|] eqn:A; [|discriminate]. cbn [bind] in F. destruct (IH acc F) as (I1 & I2 & I3).
      assert (A' : foldM add_specM (cs_base cs :: cs_specs cs) base = Ok acc) by exact A.
      destruct (add_specM_all _ _ _ A') as (J1 & J2 & J3). split; [auto|]. split.
      + intros c p [<-|C] P; [|eapply I2; eauto]. destruct (J2 p) as (sp & sp' & ? & ? & ?); [destruct P as [->|P]; [left|right]; auto|].
        exists sp, sp'. auto.
      + intros sp S0. destruct (I3 sp S0) as [S1|(c & p & ? & ? & ?)]; [|right; exists c, p; split; [right|]; auto].
        destruct (J3 sp S1) as [S2|(p & P & ?)]; [auto|]. right. exists cs, p. split; [left; auto|]. split; [destruct P as [<-|P]; auto|auto]. }
  destruct FF as (F1 & F2 & F3). split; [|split].
  - assert (G : forall p, mentioned slicing cross p -> exists sp sp', mk_spec p = Ok sp /\ In sp' all /\ same_slices sp sp').
    { intros p [P|(cs & C & P)]; [|eapply F2; eauto]. destruct (B1 p P) as (sp & ? & ?). exists sp, sp. auto using same_slices_refl. }
    intros p P. destruct (G p P) as (sp & sp' & ? & I0 & ?). exists sp, sp'. destruct all; [destruct I0|auto].
  - destruct all as [|a all].
    + intros sp [<-|[]]. right. split.
      * destruct slicing as [|s ss]; [reflexivity|]. destruct (B1 s (or_introl eq_refl)) as (x & _ & X). apply F1 in X. destruct X.
      * split; [|reflexivity]. destruct cross as [|c cs]; [reflexivity|]. destruct (F2 c (cs_base c) (or_introl eq_refl) (or_introl eq_refl)) as (? & ? & _ & [] & _).
    + intros sp S0. left. destruct (F3 sp S0) as [S1|(cs & p & ? & ? & ?)].
      * destruct (B2 sp S1) as (p & ? & ?). exists p. split; [left|]; auto.
      * exists p. split; [right; exists cs; auto|auto].
  - destruct all; discriminate.
Qed.
