(* Slicer *)
From Coq Require Import String Sorting.Sorted.
From Verif Require Import Base BaseFacts Beam BeamFacts.
From Verif Require Import Slicer_Model Slicer_Spec Slicer_Proofs Pipeline_Model Pipeline_Proofs.
From Verif Require Import Slicer_Main.
Local Open Scope string_scope.
Local Open Scope list_scope.

(* ------------------------------------------------------------------ *)
(** ** C01 *)
(** Slice keys of an example are exactly the matching combinations. *)
Theorem C01_slices_exact :
  forall float_repr valid_utf8 proto sp ds dflt,
    NoDup (map fst (sp_values proto)) ->
    mk_spec proto = Ok sp ->
    columns_utf8 valid_utf8 (columns sp) ds dflt ->
    exists ks,
      generate_slices float_repr valid_utf8 sp ds dflt = Ok ks /\
      (* soundness: every produced key is a matching combination, names ascending *)
      (forall k, In k ks ->
         fixed_hold (render float_repr) (features sp) ds dflt /\
         slice_of (columns sp) (features sp) ds dflt k) /\
      (* completeness: every matching combination is produced *)
      (fixed_hold (render float_repr) (features sp) ds dflt ->
         forall k, slice_of (columns sp) (features sp) ds dflt k ->
         exists k', In k' ks /\ same_key k k') /\
      (* nothing is produced when a fixed value or a column is missing *)
      ((~ fixed_hold (render float_repr) (features sp) ds dflt
        \/ exists c, In c (columns sp) /\ ~ present ds dflt c) -> ks = []) /\
      (* each key once, when no column mixes str and bytes *)
      ((forall c s, In c (columns sp) ->
          has_value ds dflt c (VStr s) -> has_value ds dflt c (VBytes s) -> False) -> NoDup ks).
Proof. exact C01_slices_exact_pf. Qed.

Example C01_example :
  mk_spec ex_proto = Ok ex_spec /\
  generate_slices no_repr all_utf8 ex_spec [ex_dict] None =
    Ok [[("gender", VStr "f"); ("interest", VStr "knitting")];
        [("gender", VStr "f"); ("interest", VStr "games")]].
Proof. split; vm_compute; reflexivity. Qed.

(* ------------------------------------------------------------------ *)
(** ** C02 *)
(** A generated slice key is recognised by the spec that generated it; an
    accepted key has exactly the spec's names and its fixed values. *)
Theorem C02_generated_applicable :
  forall float_repr valid_utf8 proto sp ds dflt ks k,
    NoDup (map fst (sp_values proto)) ->
    mk_spec proto = Ok sp ->
    columns_utf8 valid_utf8 (columns sp) ds dflt ->
    generate_slices float_repr valid_utf8 sp ds dflt = Ok ks -> In k ks ->
    is_slice_applicable sp k = true.
Proof. exact C02_generated_applicable_pf. Qed.

Theorem C02_applicable_characterised :
  forall proto sp k,
    NoDup (map fst (sp_values proto)) ->
    mk_spec proto = Ok sp ->
    (is_slice_applicable sp k = true <->
     Permutation (map fst k) (columns sp ++ map fst (features sp)) /\
     (forall n v w, In (n, v) k -> In (n, w) (features sp) -> same_value (to_type v) w)).
Proof. exact C02_applicable_characterised_pf. Qed.

Example C02_example :
  is_slice_applicable ex_spec [("gender", VStr "f"); ("interest", VStr "games")] = true /\
  is_slice_applicable ex_spec [("gender", VStr "m"); ("interest", VStr "games")] = false /\
  is_slice_applicable ex_spec [("gender", VStr "f")] = false.
Proof. repeat split; vm_compute; reflexivity. Qed.

(* ------------------------------------------------------------------ *)
(** ** C03 *)
(** Refuted: a config asking for zip == "02139" does not select an example whose
    zip feature is the text "02139" (the configured value becomes the number 2139,
    whose text is "2139"); nor does age == "42" select the bytes value b"42",
    which is how text arrives from a serialised example. *)
Theorem C03_text_value_selects_refuted :
  exists proto sp (d : fdict) n s,
    mk_spec proto = Ok sp /\ sp_keys proto = [] /\ sp_values proto = [(n, s)] /\
    has_value [d] None n (VStr s) /\
    forall float_repr valid_utf8, generate_slices float_repr valid_utf8 sp [d] None = Ok [].
Proof. exact C03_text_value_selects_refuted_pf. Qed.

Theorem C03_bytes_value_selects_refuted :
  exists proto sp (d : fdict) n s,
    mk_spec proto = Ok sp /\ sp_keys proto = [] /\ sp_values proto = [(n, s)] /\
    has_value [d] None n (VBytes s) /\
    forall float_repr valid_utf8, generate_slices float_repr valid_utf8 sp [d] None = Ok [].
Proof. exact C03_bytes_value_selects_refuted_pf. Qed.

(** What does hold: text that does not read as a number is always found, in
    string or bytes form. *)
Theorem C03_text_value_selects_partial :
  forall float_repr valid_utf8 n s ds dflt raw,
    py_int s = None -> py_float s = None ->
    has_value ds dflt n raw -> text_of raw = Some s ->
    exists sp, mk_spec (SlicingSpec [] [(n, s)]) = Ok sp /\
      generate_slices float_repr valid_utf8 sp ds dflt = Ok [[(n, VStr s)]].
Proof. exact C03_text_value_selects_partial_pf. Qed.

Example C03_example :
  py_int "red" = None /\ py_float "red" = None /\
  generate_slices no_repr all_utf8 (Spec [] [("colour", VStr "red")])
     [[("colour", Some [VBytes "blue"; VBytes "red"])]] None = Ok [[("colour", VStr "red")]].
Proof. repeat split; vm_compute; reflexivity. Qed.

(* ------------------------------------------------------------------ *)
(** ** C04 *)
(** An example reaches each of its slices exactly once. *)
Theorem C04_fanout_once :
  forall (X : Type) float_repr valid_utf8 sps ds dflt pre keys (x : X),
    extract_slice_keys float_repr valid_utf8 ds dflt sps pre = Ok keys ->
    (* every delivery is to a key generated by a spec, or already attached *)
    (forall k y, In (k, y) (fanout keys x) -> y = x /\
       (In k pre \/ exists sp l, In sp sps /\
          generate_slices float_repr valid_utf8 sp ds dflt = Ok l /\ In k l)) /\
    (* every such key gets a delivery (up to Python equality of keys) *)
    (forall k, (In k pre \/ exists sp l, In sp sps /\
          generate_slices float_repr valid_utf8 sp ds dflt = Ok l /\ In k l) ->
       exists k', In (k', x) (fanout keys x) /\ same_key k k') /\
    (* no two deliveries to the same key *)
    ForallOrdPairs (fun a b => ~ same_key (fst b) (fst a)) (fanout keys x).
Proof. exact C04_fanout_once_pf. Qed.

Example C04_example :
  exists keys, extract_slice_keys no_repr all_utf8 [ex_dict] None
      [ex_spec; Spec [] []; Spec ["interest"; "gender"] []; Spec [] []] [] = Ok keys /\
    map fst (fanout keys tt) =
      [[("gender", VStr "f"); ("interest", VStr "knitting")];
       [("gender", VStr "f"); ("interest", VStr "games")]; []].
Proof. eexists; split; vm_compute; reflexivity. Qed.

(* ------------------------------------------------------------------ *)
(** ** C05 *)
(** Metrics reported for a slice are the metrics of exactly the examples in the
    slice, for every CombinePerKey schedule.  [metric] is what the combiner
    computes on a multiset (each concrete combiner of this development is shown
    to satisfy the premise, see the Combiners files). *)
Theorem C05_slice_metrics_exact :
  forall (X A O : Type) float_repr valid_utf8
         (c : combiner (example X) A O) (metric : list (example X) -> O)
         protos sps xs kvs out,
    (forall p, In p protos -> NoDup (map fst (sp_values p))) ->
    mapM mk_spec protos = Ok sps ->
    (forall sp n v, In sp sps -> In (n, v) (features sp) -> plain v) ->
    (forall x, In x xs -> clean valid_utf8 sps x) ->
    (forall s, outcome c s = metric (inputs s)) ->
    (forall l l', Permutation l l' -> metric l = metric l') ->
    keyed_examples float_repr valid_utf8 sps xs = Ok kvs ->
    per_key skey_eqb c kvs out ->
    NoDup (map fst out) /\
    (forall k, In k (map fst out) <-> exists x, In x xs /\ in_slice float_repr sps x k) /\
    (forall k o, In (k, o) out ->
       exists p : example X -> bool,
         (forall x, In x xs -> (p x = true <-> in_slice float_repr sps x k)) /\
         o = metric (filter p xs)).
Proof. exact C05_slice_metrics_exact_pf. Qed.

Example C05_example :
  exists kvs out,
    keyed_examples no_repr all_utf8 [Spec ["colour"] []; Spec [] []] c05_xs = Ok kvs /\
    per_key skey_eqb count_combiner kvs out /\
    (forall s, outcome (@count_combiner (example nat)) s = Z.of_nat (length (inputs s))) /\
    out = [([("colour", VStr "red")], 2%Z); ([], 2%Z); ([("colour", VStr "blue")], 1%Z)].
Proof.
  eexists. exists [([("colour", VStr "red")], 2%Z); ([], 2%Z); ([("colour", VStr "blue")], 1%Z)].
  split; [vm_compute; reflexivity|]. split; [|split; [apply count_spec|reflexivity]].
  unfold per_key. split; [|split].
  - repeat constructor; simpl; intuition discriminate.
  - intro k. simpl. intuition.
  - intros k o H. simpl in H. destruct H as [H|[H|[H|[]]]]; inversion H; subst k o; clear H.
    + eexists (Merge (Bundle [nth 0 c05_xs (Example [] None 0)]) [Bundle [nth 1 c05_xs (Example [] None 0)]]).
      split; [vm_compute; reflexivity|reflexivity].
    + eexists (Bundle [nth 0 c05_xs (Example [] None 0); nth 1 c05_xs (Example [] None 0)]).
      split; [vm_compute; reflexivity|reflexivity].
    + eexists (Bundle [nth 1 c05_xs (Example [] None 0)]).
      split; [vm_compute; reflexivity|reflexivity].
Qed.

(* ------------------------------------------------------------------ *)
(** ** C06 *)
(** Small slices never leak: for the counts and values produced from the same
    fanned-out examples, a non-overall slice with fewer than [min_size] examples
    is reported with the error entry, everything else is unchanged. *)
Theorem C06_small_slices_hidden :
  forall (X V A : Type) (kvs : list (skey * X)) (c : combiner X A V) values counts (err : V) (min_size : Z),
    per_key skey_eqb c kvs values ->
    per_key skey_eqb count_combiner kvs counts ->
    exists out,
      filter_out_slices skey_eqb (fun k => match k with [] => true | _ => false end)
        err min_size values counts = Ok out /\
      NoDup (map fst out) /\
      (forall k, In k (map fst out) <-> In k (map fst values)) /\
      forall k v, In (k, v) out ->
        (k <> [] /\ (Z.of_nat (length (values_of skey_eqb k kvs)) < min_size)%Z /\ v = err) \/
        ((k = [] \/ (min_size <= Z.of_nat (length (values_of skey_eqb k kvs)))%Z) /\ In (k, v) values).
Proof. exact C06_small_slices_hidden_pf. Qed.

Example C06_example :
  filter_out_slices skey_eqb (fun k => match k with [] => true | _ => false end) 999%Z 2
    [([("c", VStr "red")], 10%Z); ([], 20%Z); ([("c", VStr "blue")], 30%Z)]
    [([("c", VStr "red")], 2%Z); ([], 2%Z); ([("c", VStr "blue")], 1%Z)]
  = Ok [([("c", VStr "red")], 10%Z); ([], 20%Z); ([("c", VStr "blue")], 999%Z)].
Proof. vm_compute. reflexivity. Qed.

(* ------------------------------------------------------------------ *)
(** ** C07 *)
Theorem C07_min_size_with_cross_slices_refuted :
  exists (values : list (any_key * Z)) (counts : list (any_key * Z)) err min_size,
    (* the counts are those of all single slices present *)
    (forall k v, In (Single k, v) values -> exists n, In (Single k, n) counts) /\
    (* the cross slice compares two slices that are large enough *)
    (forall b c v, In (Cross b c, v) values ->
       exists nb nc, In (Single b, nb) counts /\ In (Single c, nc) counts /\
                     (min_size <= nb)%Z /\ (min_size <= nc)%Z) /\
    filter_out_slices any_eqb any_overall err min_size values counts = Err IndexError.
Proof. exact C07_min_size_with_cross_slices_refuted_pf. Qed.

(** In general: whenever some cross slice value is present, the filter fails. *)
Theorem C07_min_size_crashes_on_every_cross_slice :
  forall (values : list (any_key * Z)) (counts : list (any_key * Z)) err min_size b c v,
    In (Cross b c, v) values ->
    (forall k n, In (k, n) counts -> exists s, k = Single s) ->
    filter_out_slices any_eqb any_overall err min_size values counts = Err IndexError.
Proof. exact C07_min_size_crashes_on_every_cross_slice_pf. Qed.

(* ------------------------------------------------------------------ *)
(** ** C08 *)
Theorem C08_slice_key_round_trip :
  forall f32 k, storable f32 k ->
    exists p, serialize_slice_key f32 k = Ok p /\ deserialize_slice_key p = Ok k.
Proof. exact C08_slice_key_round_trip_pf. Qed.

Theorem C08_cross_slice_key_round_trip :
  forall f32 b c, storable f32 b -> storable f32 c ->
    exists p, serialize_cross f32 (b, c) = Ok p /\ deserialize_cross p = Ok (b, c).
Proof. exact C08_cross_slice_key_round_trip_pf. Qed.

Example C08_example :
  storable (fun q => q) [("age", VInt 5); ("city", VStr "Zürich"); ("score", VFloat (Q2Qc (1#2)))].
Proof. intros n v [H|[H|[H|[]]]]; inversion H; subst; simpl; auto; lia. Qed.

(** Without the representability condition the round trip fails: 0.1 comes back
    as the nearest 32-bit float. *)
Theorem C08_float_precision_refuted :
  forall f32, f32 (Q2Qc (1#10)) = Q2Qc (13421773 # 134217728) ->
  exists k k' p, serialize_slice_key f32 k = Ok p /\ deserialize_slice_key p = Ok k' /\ k <> k'.
Proof. exact C08_float_precision_refuted_pf. Qed.

(* ------------------------------------------------------------------ *)
(** ** C09 *)
Theorem C09_key_types_never_confused :
  (forall k, is_cross_slice_key (key_obj k) = Ok false) /\
  (forall b c, is_cross_slice_key (cross_obj (b, c)) = Ok true).
Proof. exact C09_key_types_never_confused_pf. Qed.

Example C09_example :
  key_obj [("age", VInt 5)] = PTup [PTup [PStr "age"; PInt 5]] /\
  cross_obj ([], []) = PTup [PTup []; PTup []] /\
  get_slice_key_type (PTup [PInt 3]) = Err TypeError.
Proof. repeat split. Qed.

(* ------------------------------------------------------------------ *)
(** ** C86 *)
(** The specs used are those mentioned, each once more only if it was listed so; without any the
    overall slice. *)
Theorem C86_specs_used :
  forall (slicing : list slicing_spec) (cross : list cross_spec) (used : list spec),
    config_specs slicing cross = Ok used ->
    (forall p, mentioned slicing cross p ->
       exists sp sp', mk_spec p = Ok sp /\ In sp' used /\ same_slices sp sp') /\
    (forall sp, In sp used ->
       (exists p, mentioned slicing cross p /\ mk_spec p = Ok sp) \/
       slicing = [] /\ cross = [] /\ sp = Spec [] []) /\
    used <> [].
Proof. exact C86_specs_used_pf. Qed.

Example C86_example :
  config_specs [SlicingSpec ["age"] []] [CrossSpec (SlicingSpec [] []) [SlicingSpec ["age"] []; SlicingSpec [] [("gender", "f")]]] =
  Ok [Spec ["age"] []; Spec [] []; Spec [] [("gender", VStr "f")]].
Proof. reflexivity. Qed.

Print Assumptions C01_slices_exact.
Print Assumptions C02_generated_applicable.
Print Assumptions C02_applicable_characterised.
Print Assumptions C03_text_value_selects_refuted.
Print Assumptions C03_bytes_value_selects_refuted.
Print Assumptions C03_text_value_selects_partial.
Print Assumptions C04_fanout_once.
Print Assumptions C05_slice_metrics_exact.
Print Assumptions C06_small_slices_hidden.
Print Assumptions C07_min_size_with_cross_slices_refuted.
Print Assumptions C07_min_size_crashes_on_every_cross_slice.
Print Assumptions C08_slice_key_round_trip.
Print Assumptions C08_cross_slice_key_round_trip.
Print Assumptions C08_float_precision_refuted.
Print Assumptions C09_key_types_never_confused.
Print Assumptions C86_specs_used.
