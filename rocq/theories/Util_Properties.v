(* Util *)
From Coq Require Import String Ascii.
From Verif Require Import Base BaseFacts Slicer_Model Util_Model.
From Verif Require Import Util_Main.
Local Open Scope string_scope.
Local Open Scope list_scope.

(* ------------------------------------------------------------------ *)
(** ** C45 *)
(** include keeps exactly the covered leaves, exclude exactly the others; both succeed. *)
Theorem C45_include_exclude_partition :
  forall (A : Type) f (t : data A),
    unique_keys t -> unique_filter f -> fits f t -> f <> Filt [] ->
    exists ti te,
      include_filter f t = Ok ti /\ exclude_filter f t = Ok te /\
      (forall p a, leaf_at ti p a <-> leaf_at t p a /\ covered f p) /\
      (forall p a, leaf_at te p a <-> leaf_at t p a /\ ~ covered f p) /\
      (forall p a, leaf_at t p a -> (leaf_at ti p a <-> ~ leaf_at te p a)).
Proof. exact C45_include_exclude_partition_pf. Qed.

(** Merging two filters keeps exactly the union of what each keeps. *)
Theorem C45_merge_is_union :
  forall (A : Type) f1 f2 (t t1 t2 : data A),
    unique_keys t -> unique_filter f1 -> unique_filter f2 ->
    fits f1 t -> fits f2 t -> fits (merge_filters f1 f2) t ->
    include_filter f1 t = Ok t1 -> include_filter f2 t = Ok t2 ->
    exists t3, include_filter (merge_filters f1 f2) t = Ok t3 /\
      forall p a, leaf_at t3 p a <-> leaf_at t1 p a \/ leaf_at t2 p a.
Proof. exact C45_merge_is_union_pf. Qed.

(** Refuted for the empty filter at the top level: include keeps everything (the
    empty dict "matches all values") and exclude keeps everything too. *)
Theorem C45_empty_filter_refuted :
  exists (t : data nat) p a,
    unique_keys t /\ leaf_at t p a /\
    include_filter (Filt []) t = Ok t /\ exclude_filter (Filt []) t = Ok t.
Proof. exact C45_empty_filter_refuted_pf. Qed.

Example C45_example :
  include_filter ex_filter ex_extracts = Ok (Dict [("features", Dict [("age", Leaf 1)])]) /\
  exclude_filter ex_filter ex_extracts = Ok (Dict [("features", Dict [("sex", Leaf 2)]); ("labels", Leaf 3)]) /\
  include_filter (merge_filters ex_filter (Filt [("features", Filt [("sex", Filt [])])])) ex_extracts =
    Ok (Dict [("features", Dict [("age", Leaf 1); ("sex", Leaf 2)])]).
Proof. repeat split; vm_compute; reflexivity. Qed.

(* ------------------------------------------------------------------ *)
(** ** C46 *)
(** The loop stops within length(current) + 1 tests; the result is the first free
    name among key, key_1, key_2, ... *)
Theorem C46_unique_key_fresh :
  forall key current fuel, length current <= fuel ->
    exists k, unique_key fuel key current = Some k /\
      ~ In k current /\
      (~ In key current -> k = key) /\
      (In key current ->
         exists n, 1 <= n /\ k = key +++ "_" +++ print_Z (Z.of_nat n) /\
           forall m, 1 <= m < n -> In (key +++ "_" +++ print_Z (Z.of_nat m)) current).
Proof. exact C46_unique_key_fresh_pf. Qed.

Example C46_example :
  unique_key 3 "loss" ["auc"; "loss"; "loss_1"] = Some "loss_2" /\
  unique_key 3 "mse" ["auc"; "loss"; "loss_1"] = Some "mse".
Proof. split; vm_compute; reflexivity. Qed.

(* ------------------------------------------------------------------ *)
(** ** C47 *)
(** Refuted: different part lists collide, although the separator is escaped "to
    ensure the keys can be parsed out". *)
Theorem C47_compound_key_injective_refuted :
  exists ks1 ks2, ks1 <> ks2 /\
    compound_key KEY_SEPARATOR ks1 = compound_key KEY_SEPARATOR ks2.
Proof. exact C47_compound_key_injective_refuted_pf. Qed.

(** The same with no part that touches the separator at its ends, but an empty one. *)
Theorem C47_empty_part_collides_refuted :
  exists ks1 ks2, ks1 <> ks2 /\
    compound_key KEY_SEPARATOR ks1 = compound_key KEY_SEPARATOR ks2 /\
    (forall k t, In k (ks1 ++ ks2) -> k <> "_" +++ t /\ k <> t +++ "_").
Proof. exact C47_empty_part_collides_refuted_pf. Qed.

(** For parts that are not empty and do not start or end with an underscore,
    compound keys identify their parts (parts may contain the separator). *)
Theorem C47_compound_key_injective_partial :
  forall ks1 ks2, Forall clean_key ks1 -> Forall clean_key ks2 ->
    compound_key KEY_SEPARATOR ks1 = compound_key KEY_SEPARATOR ks2 -> ks1 = ks2.
Proof. exact C47_compound_key_injective_partial_pf. Qed.

Example C47_example :
  compound_key KEY_SEPARATOR ["head"; "my__loss"; "a_b"] = "head__my____loss__a_b" /\
  clean_key "my__loss".
Proof.
  split; [reflexivity|]. unfold clean_key. split; [discriminate|]. split; [discriminate|].
  intros t E. apply (f_equal list_ascii_of_string) in E.
  assert (A : forall s u, list_ascii_of_string (s +++ u) = (list_ascii_of_string s ++ list_ascii_of_string u))
    by (induction s; simpl; congruence).
  rewrite A in E. apply (f_equal (@rev ascii)) in E. rewrite rev_app_distr in E. simpl in E. discriminate.
Qed.

(* ------------------------------------------------------------------ *)
(** ** C56 *)
(** Looking up a path returns the value stored there (unless it is an empty dict,
    which counts as absent); a missing path gives the default, None, or ValueError. *)
Theorem C56_lookup_finds_stored :
  forall (A : Type) (t v : data A) keys dflt opt,
    unique_keys t -> keys <> [] -> stored t keys v -> v <> Dict [] ->
    get_by_keys t keys dflt opt = Ok (Some v).
Proof. exact C56_lookup_finds_stored_pf. Qed.

(** Flattened storage ("head/probabilities") is found under the same path as
    nested storage, and gives the same answer when the path is absent. *)
Theorem C56_lookup_flattened :
  forall (A : Type) (d : list (string * list (string * data A))) k1 k2 dflt opt,
    NoDup (map fst d) -> (forall k i, In (k, i) d -> no_slash k /\ i <> []) -> no_slash k1 ->
    get_by_keys (Dict (flattened d)) [k1; k2] dflt opt =
    get_by_keys (Dict (map (fun kd => (fst kd, Dict (snd kd))) d)) [k1; k2] dflt opt.
Proof. exact C56_lookup_flattened_pf. Qed.

(** What a failed lookup means: the default if there is one, else None or an error. *)
Theorem C56_lookup_absent :
  forall (A : Type) (t : data A) keys dflt opt,
    unique_keys t -> absent t keys ->
    get_by_keys t keys dflt opt = match dflt, opt with Some v, _ => Ok (Some v) | None, true => Ok None | None, false => Err ValueError end.
Proof. exact C56_lookup_absent_pf. Qed.

Example C56_example :
  get_by_keys (Dict [("head1", Dict [("logits", Leaf 1); ("classes", Leaf 2)])]) ["head1"; "classes"] None false
    = Ok (Some (Leaf 2)) /\
  get_by_keys (Dict [("head1/logits", Leaf 1); ("head1/classes", Leaf 2)]) ["head1"; "classes"] None false
    = Ok (Some (Leaf 2)) /\
  get_by_keys (Dict [("head1/logits", Leaf 1)]) ["head2"; "logits"] None false = Err ValueError /\
  get_by_keys (Dict [("head1/logits", Leaf 1)]) ["head2"; "logits"] None true = Ok None.
Proof. repeat split; vm_compute; reflexivity. Qed.

Print Assumptions C45_include_exclude_partition.
Print Assumptions C45_merge_is_union.
Print Assumptions C45_empty_filter_refuted.
Print Assumptions C46_unique_key_fresh.
Print Assumptions C47_compound_key_injective_refuted.
Print Assumptions C47_empty_part_collides_refuted.
Print Assumptions C47_compound_key_injective_partial.
Print Assumptions C56_lookup_finds_stored.
Print Assumptions C56_lookup_flattened.
Print Assumptions C56_lookup_absent.
