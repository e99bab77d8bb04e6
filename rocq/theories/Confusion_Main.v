(* Proofs of the theorems restated in Confusion_Properties.v. *)
From Coq Require Import String Ascii Sorting.Sorted.
From Verif Require Import Base BaseFacts Beam BeamFacts Util_Model Util_Main Inputs_Model Inputs_Main Sums_Model Sums_Main Histogram_Model Histogram_Main Confusion_Model.
Local Open Scope string_scope.
Local Open Scope list_scope.

(* C14, C15, C43, C66, C67: exact confusion matrices and arithmetic on them. *)

Lemma key_eqb_eq a b : key_eqb a b = true <-> a = b.
Proof.
  destruct a, b; simpl; try (split; congruence).
  rewrite Qc_eqb_eq. split; [intros ->; auto|intro H; inversion H; auto].
Qed.

Lemma cell_eqb_eq a b : cell_eqb a b = true <-> a = b.
Proof. destruct a, b; simpl; split; congruence. Qed.

(** Weight of an example counted as a positive / negative at threshold t: fractional
    labels split it, otherwise the label is compared with t. *)

Definition positive_weight (fr : bool) (t : num) (x : scored) : Qc :=
  if fr then (sc_weight x * sc_label x)%Qc else if num_ltb t (Fin (sc_label x)) then sc_weight x else 0%Qc.

Definition negative_weight (fr : bool) (t : num) (x : scored) : Qc :=
  if fr then (sc_weight x * (1 - sc_label x))%Qc else if num_ltb t (Fin (sc_label x)) then 0%Qc else sc_weight x.

Definition predicted (t : num) (x : scored) : bool := num_ltb t (sc_score x).

Definition not_predicted (t : num) (x : scored) : bool := negb (num_ltb t (sc_score x)).

(** Does the example take part in the cell at all? *)

Definition takes_part (fr : bool) (t : num) (c : cell) (x : scored) : bool :=
  let pos := if fr then negb (Qc_eqb (sc_weight x * sc_label x)%Qc 0%Qc) else num_ltb t (Fin (sc_label x)) in
  let neg := if fr then negb (Qc_eqb (sc_weight x * (1 - sc_label x))%Qc 0%Qc) else negb (num_ltb t (Fin (sc_label x))) in
  match c with
  | TP => pos && predicted t x
  | FN => pos && not_predicted t x
  | FP => neg && predicted t x
  | TN => neg && not_predicted t x
  end.

Definition cell_weight (fr : bool) (t : num) (c : cell) (x : scored) : Qc :=
  match c with
  | TP => if predicted t x then positive_weight fr t x else 0%Qc
  | FN => if predicted t x then 0%Qc else positive_weight fr t x
  | FP => if predicted t x then negative_weight fr t x else 0%Qc
  | TN => if predicted t x then 0%Qc else negative_weight fr t x
  end.

Definition in_cell (fr : bool) (t : num) (c : cell) (x : scored) : bool :=
  cell_eqb c (cell_of fr t (sc_label x) (sc_score x)).

Definition opt_list {A} (o : option A) : list A := match o with Some a => [a] | None => [] end.

Lemma entry_of_from fr t id c xs : forall e, (en_ids e c = [] \/ en_ids e c = opt_list id) ->
  en_count (fold_left (entry_step fr t id) xs e) c = (en_count e c + qsum (map sc_weight (filter (in_cell fr t c) xs)))%Qc /\
  en_ids (fold_left (entry_step fr t id) xs e) c = if existsb (in_cell fr t c) xs then opt_list id else en_ids e c.
Proof.
  induction xs as [|[[l p] w] xs IH]; intros e H.
  - simpl. split; [ring|reflexivity].
  - cbn [fold_left filter existsb]. change (in_cell fr t c (l, p, w)) with (cell_eqb c (cell_of fr t l p)).
    destruct (IH (entry_step fr t id e (l, p, w))) as [I1 I2].
    { cbn [entry_step en_ids]. destruct (cell_eqb _ _); auto. }
    rewrite I1, I2. cbn [entry_step en_count en_ids].
    destruct (cell_eqb c (cell_of fr t l p)); cbn [orb map qsum fold_right].
    + split.
      * change (fold_right Qcplus 0%Qc) with qsum. unfold sc_weight at 2. cbn [snd]. ring.
      * destruct (existsb (in_cell fr t c) xs); destruct id; reflexivity.
    + split; reflexivity.
Qed.

Lemma entry_of_spec fr t id c xs :
  en_count (entry_of fr t id xs) c = qsum (map sc_weight (filter (in_cell fr t c) xs)) /\
  en_ids (entry_of fr t id xs) c = if existsb (in_cell fr t c) xs then opt_list id else [].
Proof.
  unfold entry_of. destruct (entry_of_from fr t id c xs zero_entry) as [-> ->]; [left; reflexivity|].
  simpl. split; [ring|reflexivity].
Qed.

(** The split parts of one example. *)

Lemma parts_cell fr t c x :
  qsum (map sc_weight (filter (in_cell fr t c) (parts fr x))) = cell_weight fr t c x /\
  existsb (in_cell fr t c) (parts fr x) = takes_part fr t c x.
Proof.
  destruct x as [[l p] w]. unfold parts. destruct fr.
  - unfold cell_weight, takes_part, positive_weight, negative_weight, not_predicted, predicted.
    cbn [sc_score sc_weight sc_label fst snd]. cbn [filter]. unfold sc_weight; cbn [snd].
    assert (E : forall q : Qc, Qc_eqb q 0%Qc = true -> q = 0%Qc) by (intros q; apply Qc_eqb_eq).
    assert (Z : Qc_eqb 0%Qc 1%Qc = false) by reflexivity. assert (O : Qc_eqb 1%Qc 1%Qc = true) by reflexivity.
    destruct (Qc_eqb (w * (1 - l))%Qc 0%Qc) eqn:E1; destruct (Qc_eqb (w * l)%Qc 0%Qc) eqn:E2; cbn [negb filter existsb];
      try apply E in E1; try apply E in E2;
      unfold in_cell, cell_of, sc_label, sc_score; cbn [fst snd]; rewrite ?Z, ?O;
      destruct (num_ltb t p), c; cbn [cell_eqb filter existsb andb orb negb map qsum fold_right snd];
      rewrite ?E1, ?E2; split; try reflexivity; ring.
  - cbn [filter existsb]. unfold in_cell, cell_of, cell_weight, takes_part, positive_weight, negative_weight, not_predicted, predicted.
    cbn [sc_score sc_weight sc_label fst snd].
    destruct (num_ltb t p), (num_ltb t (Fin l)), c; cbn [cell_eqb andb orb negb map qsum fold_right sc_weight snd];
      split; try reflexivity; unfold sc_weight; cbn [snd]; ring.
Qed.

Lemma parts_cells fr t c D :
  qsum (map sc_weight (filter (in_cell fr t c) (flat_map (parts fr) D))) = qsum (map (cell_weight fr t c) D) /\
  existsb (in_cell fr t c) (flat_map (parts fr) D) = existsb (takes_part fr t c) D.
Proof.
  induction D as [|x D [I1 I2]]; [split; reflexivity|]. cbn [flat_map].
  rewrite filter_app, map_app, qsum_app, I1, existsb_app, I2.
  destruct (parts_cell fr t c x) as [-> ->]. split; reflexivity.
Qed.

(** What an accumulator must hold after the elements l: per threshold the weight and
    the first ids of every cell. *)

Definition examples_of (ex : inputs_dict -> list (Qc * num)) (w : inputs_dict -> Qc) (e : inputs_dict) : list scored :=
  map (fun x => (fst x, snd x, w e)) (ex e).

Definition cell_total (fr : bool) (t : num) (c : cell) (D : list scored) : Qc := qsum (map (cell_weight fr t c) D).

Definition cell_ids (fr : bool) (t : num) (c : cell) ex w (l : list (option string * inputs_dict)) : list string :=
  flat_map (fun e => if existsb (takes_part fr t c) (examples_of ex w (snd e)) then opt_list (fst e) else []) l.

Section Accumulate.
  Variables (ths : list num) (limit : nat) (fr : bool).
  Variables (ex : inputs_dict -> list (Qc * num)) (w : inputs_dict -> Qc).
  Hypothesis NDup : NoDup ths.
  Hypothesis Limit : 1 <= limit.

  Definition holds (t : num) (l : list (option string * inputs_dict)) (e : entry) : Prop :=
    forall c, en_count e c = cell_total fr t c (scored_of ex w (map snd l)) /\
              en_ids e c = firstn limit (cell_ids fr t c ex w l).

  Definition accumulates (acc : accumulator) (l : list (option string * inputs_dict)) : Prop :=
    forall t, In t ths -> match dget key_eqb acc t with
                          | None => l = []
                          | Some e => l <> [] /\ holds t l e
                          end.

  Lemma cell_total_app t c D E : cell_total fr t c (D ++ E) = (cell_total fr t c D + cell_total fr t c E)%Qc.
  Proof. unfold cell_total. rewrite map_app. apply qsum_app. Qed.

  Lemma merge_ids_firstn (a b : list string) : merge_ids limit (firstn limit a) (firstn limit b) = firstn limit (a ++ b).
  Proof.
    unfold merge_ids. rewrite firstn_firstn, Nat.min_id, firstn_app, firstn_length. f_equal.
    rewrite firstn_firstn. f_equal. lia.
  Qed.

  Lemma holds_merge t l1 l2 a e : holds t l1 a -> holds t l2 e ->
    holds t (l1 ++ l2) (Entry (fun c => en_count a c + en_count e c)%Qc (fun c => merge_ids limit (en_ids a c) (en_ids e c))).
  Proof.
    intros H1 H2 c. destruct (H1 c) as [C1 I1], (H2 c) as [C2 I2]. cbn [en_count en_ids]. split.
    - rewrite C1, C2, map_app. unfold scored_of. rewrite flat_map_app, cell_total_app. reflexivity.
    - rewrite I1, I2, merge_ids_firstn. unfold cell_ids. rewrite flat_map_app. reflexivity.
  Qed.

  Lemma dget_key_dset (acc : accumulator) t e u :
    dget key_eqb (dset key_eqb acc t e) u = if key_eqb u t then Some e else dget key_eqb acc u.
  Proof. apply (dget_dset key_eqb key_eqb_eq). Qed.

  (** Updating every threshold of a list without repetitions. *)
  Lemma update_all (upd : num -> option entry) l : NoDup l -> forall (acc : accumulator),
    let acc' := fold_left (fun acc t => match upd t with
                                        | Some e => dset key_eqb acc t (merge_entry limit acc t e)
                                        | None => acc end) l acc in
    forall t, dget key_eqb acc' t =
      if memb key_eqb t l then match upd t with Some e => Some (merge_entry limit acc t e) | None => dget key_eqb acc t end
      else dget key_eqb acc t.
  Proof.
    induction l as [|u l IH]; intros ND acc; cbv zeta; intro t; [reflexivity|].
    inversion ND as [|u' l' NI ND']; subst. cbn [fold_left memb]. rewrite IH by auto. destruct (key_eqb t u) eqn:E.
    - apply key_eqb_eq in E. subst u. cbn [orb].
      assert (M : memb key_eqb t l = false) by (apply (memb_nIn _ key_eqb_eq); auto).
      rewrite M. destruct (upd t) as [e|]; [|reflexivity]. rewrite dget_key_dset.
      replace (key_eqb t t) with true by (symmetry; apply key_eqb_eq; auto). reflexivity.
    - cbn [orb]. destruct (memb key_eqb t l) eqn:M.
      + destruct (upd t) as [e|].
        * f_equal. unfold merge_entry. destruct (upd u); [rewrite dget_key_dset, E|]; reflexivity.
        * destruct (upd u); [rewrite dget_key_dset, E|]; reflexivity.
      + destruct (upd u); [rewrite dget_key_dset, E|]; reflexivity.
  Qed.

  Lemma memb_ths t : In t ths -> memb key_eqb t ths = true.
  Proof. apply (memb_In _ key_eqb_eq). Qed.

  Lemma holds_one t id e :
    holds t [(id, e)] (entry_of fr t id (flat_map (parts fr) (examples_of ex w e))).
  Proof.
    intro c. destruct (entry_of_spec fr t id c (flat_map (parts fr) (examples_of ex w e))) as [-> ->].
    destruct (parts_cells fr t c (examples_of ex w e)) as [-> ->]. cbn [map snd]. split.
    - unfold scored_of. cbn [flat_map]. rewrite app_nil_r. reflexivity.
    - unfold cell_ids. cbn [flat_map fst snd]. rewrite app_nil_r.
      destruct (existsb _ _); [|rewrite firstn_nil; reflexivity].
      destruct id; cbn [opt_list]; [|rewrite firstn_nil; reflexivity]. destruct limit; [lia|].
      cbn [firstn]. rewrite firstn_nil. reflexivity.
  Qed.

  Lemma accumulates_add acc l id e : accumulates acc l ->
    accumulates (fold_left (fun acc t => dset key_eqb acc t (merge_entry limit acc t
       (entry_of fr t id (flat_map (parts fr) (examples_of ex w e))))) ths acc) (l ++ [(id, e)]).
  Proof.
    intros A t It.
    rewrite (update_all (fun t => Some (entry_of fr t id (flat_map (parts fr) (examples_of ex w e)))) ths NDup acc t).
    rewrite memb_ths by auto. specialize (A t It). split; [destruct l; discriminate|].
    unfold merge_entry. destruct (dget key_eqb acc t) as [a|].
    - destruct A as [_ A]. apply holds_merge; auto. apply holds_one.
    - subst l. apply holds_one.
  Qed.

  Lemma accumulates_merge acc other l1 l2 : accumulates acc l1 -> accumulates other l2 ->
    accumulates (bcm_merge ths limit acc other) (l1 ++ l2).
  Proof.
    intros A B t It. unfold bcm_merge. rewrite (update_all (fun t => dget key_eqb other t) ths NDup acc t).
    rewrite memb_ths by auto. specialize (A t It). specialize (B t It).
    destruct (dget key_eqb other t) as [e|].
    - destruct B as [N B]. unfold merge_entry. destruct (dget key_eqb acc t) as [a|].
      + destruct A as [N1 A]. split; [|apply holds_merge; auto]. destruct l1; [congruence|discriminate].
      + subst l1. split; auto.
    - subst l2. rewrite app_nil_r. exact A.
  Qed.

  Lemma extract_all acc t : In t ths ->
    dget key_eqb (bcm_extract ths acc) t = match dget key_eqb acc t with Some e => Some e | None => Some zero_entry end.
  Proof.
    intro It. clear NDup. unfold bcm_extract.
    assert (G : forall l acc, dget key_eqb (fold_left (fun acc t => if dmem key_eqb acc t then acc else dset key_eqb acc t zero_entry) l acc) t =
       match dget key_eqb acc t with Some e => Some e | None => if memb key_eqb t l then Some zero_entry else None end).
    { induction l as [|u l IH]; intro a; [cbn [fold_left memb]; destruct (dget key_eqb a t); reflexivity|].
      cbn [fold_left memb]. rewrite IH. unfold dmem.
      destruct (key_eqb t u) eqn:E.
      - apply key_eqb_eq in E. subst u. cbn [orb]. destruct (dget key_eqb a t) eqn:D.
        + rewrite D. reflexivity.
        + rewrite dget_key_dset. replace (key_eqb t t) with true by (symmetry; apply key_eqb_eq; auto). reflexivity.
      - cbn [orb]. destruct (dget key_eqb a u); [reflexivity|]. rewrite dget_key_dset, E. reflexivity. }
    rewrite G, memb_ths by auto. reflexivity.
  Qed.

End Accumulate.

Lemma mapM_scalars (xs : list scored) :
  mapM (fun y : yielded => let '(label, pred, weight) := y in
          let! w := safe_to_scalar 0%Qc weight in let! l := safe_to_scalar 0%Qc label in let! p := safe_to_scalar (Fin 0%Qc) pred in Ok (l, p, w)) (map as_tuple xs) = Ok xs.
Proof.
  induction xs as [|[[l p] w] xs IH]; [reflexivity|]. cbn [map mapM as_tuple sc_label sc_score sc_weight fst snd safe_to_scalar bind].
  rewrite IH. reflexivity.
Qed.

Lemma combine_scored (xs : list scored) :
  combine (combine (map (fun x => fst (fst x)) xs) (map (fun x => snd (fst x)) xs)) (map snd xs) = xs.
Proof. induction xs as [|[[l p] w] xs IH]; [reflexivity|]. cbn [map combine fst snd]. rewrite IH. reflexivity. Qed.

(** The inputs of a run: every element carries dense labels and predictions. *)

Definition well_formed (weighted fr : bool) (m o : string) ex w (e : inputs_dict) : Prop :=
  carries weighted m o e (Reading (map fst (ex e)) (map snd (ex e)) [w e]) /\ ex e <> [] /\
  (fr = true -> forall l p, In (l, p) (ex e) -> unit_label l).

Lemma confusion_run ap ths limit fr weighted lk pk m o s ex w :
  NoDup ths -> 1 <= limit ->
  (forall e, In e (inputs s) -> well_formed weighted fr m o ex w (snd e)) ->
  exists cm xm,
    outcome (confusion_combiner ap ths limit (histogram_options None false weighted fr None) lk pk m o) s = Ok (cm, xm) /\
    m_thresholds cm = ths /\ x_thresholds xm = ths /\
    length (m_tp cm) = length ths /\ length (m_tn cm) = length ths /\
    length (m_fp cm) = length ths /\ length (m_fn cm) = length ths /\
    forall i, i < length ths ->
      let t := nth i ths NaN in
      let D := scored_of ex w (map snd (inputs s)) in
      (nth i (m_tp cm) 0%Qc = cell_total fr t TP D /\ nth i (m_fn cm) 0%Qc = cell_total fr t FN D /\
       nth i (m_fp cm) 0%Qc = cell_total fr t FP D /\ nth i (m_tn cm) 0%Qc = cell_total fr t TN D) /\
      nth i (x_tp xm) [] = firstn limit (cell_ids fr t TP ex w (inputs s)) /\
      nth i (x_fn xm) [] = firstn limit (cell_ids fr t FN ex w (inputs s)) /\
      nth i (x_fp xm) [] = firstn limit (cell_ids fr t FP ex w (inputs s)) /\
      nth i (x_tn xm) [] = firstn limit (cell_ids fr t TN ex w (inputs s)).
Proof.
  intros ND LI HG. set (oo := histogram_options None false weighted fr None).
  assert (R : exists a, run (confusion_combiner ap ths limit oo lk pk m o) s = Ok a /\
                        accumulates ths limit fr ex w a (inputs s)).
  { unfold confusion_combiner.
    apply (res_rel_run _ _ _ _ (fun e => well_formed weighted fr m o ex w (snd e)) (accumulates ths limit fr ex w)).
    - intros t It. reflexivity.
    - intros a l [id e] A (C & NE & U). unfold confusion_add. cbn [snd fst] in *.
      rewrite (prepared ap oo lk pk m o e _ C). cbn [r_labels r_scores r_weight].
      rewrite flatten_parts; auto.
      2:{ intros F x Hx. destruct x as [l0 p0]. apply (U F l0 p0 Hx). }
      cbn [bind o_fractional oo histogram_options]. rewrite mapM_scalars. cbn [bind].
      eexists. split; [reflexivity|]. unfold bcm_add. rewrite combine_scored.
      apply (accumulates_add ths limit fr ex w ND LI a l id e A).
    - intros a b l1 l2. apply accumulates_merge; auto.
    - apply Forall_forall. exact HG. }
  destruct R as (a & RA & AC). unfold outcome. rewrite RA.
  cbn [confusion_combiner c_extract res_combiner bind].
  unfold to_matrices_and_examples.
  set (get := fun t => match dget key_eqb a t with Some e => e | None => zero_entry end).
  assert (M : mapM (fun t => match dget key_eqb (bcm_extract ths a) t with Some e => Ok e | None => Err KeyError end) ths = Ok (map get ths)).
  { assert (I : forall t, In t ths -> dget key_eqb (bcm_extract ths a) t = Some (get t)).
    { intros t It. rewrite extract_all by auto. unfold get. destruct (dget key_eqb a t); reflexivity. }
    revert I. generalize (bcm_extract ths a). intros acc. clear. induction ths as [|t l IH]; intro I; [reflexivity|].
    cbn [mapM map]. rewrite I by (left; auto). cbn [bind]. rewrite IH by (intros; apply I; right; auto). reflexivity. }
  rewrite M. cbn [bind]. do 2 eexists. split; [reflexivity|].
  cbn [m_thresholds x_thresholds m_tp m_tn m_fp m_fn x_tp x_tn x_fp x_fn].
  do 2 (split; [reflexivity|]). rewrite !map_length. do 4 (split; [reflexivity|]).
  intros i Hi. cbv zeta. set (t := nth i ths NaN). assert (It : In t ths) by (apply nth_In; auto).
  assert (H : holds limit fr ex w t (inputs s) (get t)).
  { specialize (AC t It). unfold get. destruct (dget key_eqb a t) as [e|]; [apply AC|]. rewrite AC.
    intro c. split; [reflexivity|]. unfold cell_ids. cbn [flat_map]. rewrite firstn_nil. reflexivity. }
  assert (NC : forall c, nth i (map (fun e => en_count e c) (map get ths)) 0%Qc = en_count (get t) c).
  { intro c. rewrite map_map, (nth_indep _ 0%Qc (en_count (get NaN) c)) by (rewrite map_length; auto).
    rewrite (map_nth (fun x => en_count (get x) c)). reflexivity. }
  assert (NI : forall c, nth i (map (fun e => en_ids e c) (map get ths)) [] = en_ids (get t) c).
  { intro c. rewrite map_map, (nth_indep _ [] (en_ids (get NaN) c)) by (rewrite map_length; auto).
    rewrite (map_nth (fun x => en_ids (get x) c)). reflexivity. }
  rewrite !NC, !NI. split; [do 3 (split; [apply H|]); apply H|]. do 3 (split; [apply H|]). apply H.
Qed.

Lemma C14_confusion_counts_pf :
  forall ap ths limit fr weighted lk pk m o s ex w,
    NoDup ths -> 1 <= limit ->
    (forall e, In e (inputs s) -> well_formed weighted fr m o ex w (snd e)) ->
    let D := scored_of ex w (map snd (inputs s)) in
    exists cm xm,
      outcome (confusion_combiner ap ths limit (histogram_options None false weighted fr None) lk pk m o) s = Ok (cm, xm) /\
      m_thresholds cm = ths /\
      length (m_tp cm) = length ths /\ length (m_tn cm) = length ths /\
      length (m_fp cm) = length ths /\ length (m_fn cm) = length ths /\
      forall i, i < length ths ->
        let t := nth i ths NaN in
        tp_at cm i = qsum (map (positive_weight fr t) (filter (predicted t) D)) /\
        fn_at cm i = qsum (map (positive_weight fr t) (filter (not_predicted t) D)) /\
        fp_at cm i = qsum (map (negative_weight fr t) (filter (predicted t) D)) /\
        tn_at cm i = qsum (map (negative_weight fr t) (filter (not_predicted t) D)).
Proof.
  intros ap ths limit fr weighted lk pk m o s ex w ND LI HG D.
  destruct (confusion_run ap ths limit fr weighted lk pk m o s ex w ND LI HG) as (cm & xm & E & T & _ & L1 & L2 & L3 & L4 & H).
  exists cm, xm. do 6 (split; [auto|]). intros i Hi. cbv zeta.
  destruct (H i Hi) as [(H1 & H2 & H3 & H4) _]. fold D in H1, H2, H3, H4.
  unfold tp_at, fn_at, fp_at, tn_at. rewrite H1, H2, H3, H4. unfold cell_total.
  rewrite <- !qsum_map_if.
  repeat split; apply qsum_map_ext; intros x _; unfold cell_weight, not_predicted, predicted; destruct (num_ltb _ _); reflexivity.
Qed.

Lemma filter_weight_mono (g : scored -> Qc) (p q : scored -> bool) D : (forall x, In x D -> (0 <= g x)%Qc) ->
  (forall x, p x = true -> q x = true) -> (qsum (map g (filter p D)) <= qsum (map g (filter q D)))%Qc.
Proof.
  intros G H. rewrite <- !qsum_map_if. apply qsum_map_le. intros x Hx. specialize (H x).
  destruct (p x); [rewrite H by auto; apply Qcle_refl|]. destruct (q x); [auto|apply Qcle_refl].
Qed.

Lemma split_weight (g : scored -> Qc) t D :
  (qsum (map g (filter (predicted t) D)) + qsum (map g (filter (not_predicted t) D)) = qsum (map g D))%Qc.
Proof. rewrite <- !qsum_map_if, <- qsum_map_plus. apply qsum_map_ext. intros x _. unfold predicted, not_predicted. destruct (num_ltb _ _); simpl; ring. Qed.

Lemma C15_confusion_conserved_monotone_pf :
  forall ap ths limit weighted lk pk m o s ex w,
    NoDup ths -> 1 <= limit ->
    (forall e, In e (inputs s) -> well_formed weighted true m o ex w (snd e)) ->
    let D := scored_of ex w (map snd (inputs s)) in
    exists cm xm,
      outcome (confusion_combiner ap ths limit (histogram_options None false weighted true None) lk pk m o) s = Ok (cm, xm) /\
      (forall i, i < length ths ->
         (tp_at cm i + fn_at cm i = qsum (map (fun x => sc_weight x * sc_label x)%Qc D))%Qc /\
         (fp_at cm i + tn_at cm i = qsum (map (fun x => sc_weight x * (1 - sc_label x))%Qc D))%Qc) /\
      ((forall x, In x D -> (0 <= sc_weight x)%Qc /\ (0 <= sc_label x <= 1)%Qc) ->
       forall i j, i < length ths -> j < length ths -> num_leb (nth i ths NaN) (nth j ths NaN) = true ->
         (tp_at cm j <= tp_at cm i /\ fp_at cm j <= fp_at cm i /\
          fn_at cm i <= fn_at cm j /\ tn_at cm i <= tn_at cm j)%Qc).
Proof.
  intros ap ths limit weighted lk pk m o s ex w ND LI HG D.
  destruct (C14_confusion_counts_pf ap ths limit true weighted lk pk m o s ex w ND LI HG) as (cm & xm & E & _ & _ & _ & _ & _ & H).
  exists cm, xm. split; [exact E|]. fold D in H. split.
  - intros i Hi. destruct (H i Hi) as (-> & -> & -> & ->). rewrite !split_weight. split; reflexivity.
  - intros NN i j Hi Hj LE. destruct (H i Hi) as (-> & -> & -> & ->), (H j Hj) as (-> & -> & -> & ->).
    assert (P : forall t x, In x D -> (0 <= positive_weight true t x)%Qc).
    { intros t x Hx. destruct (NN x Hx) as [A [B _]]. apply Qcmult_nonneg; auto. }
    assert (N : forall t x, In x D -> (0 <= negative_weight true t x)%Qc).
    { intros t x Hx. destruct (NN x Hx) as [A [_ B]]. apply Qcmult_nonneg; auto. qc_lra. }
    assert (U : forall x, predicted (nth j ths NaN) x = true -> predicted (nth i ths NaN) x = true).
    { intros x. unfold predicted. intro X. destruct (nth i ths NaN) as [| |q|], (nth j ths NaN) as [| |r|], (sc_score x) as [| |p|];
        try discriminate; try reflexivity. apply ltb_Fin in X. apply leb_Fin in LE. apply ltb_Fin. qc_lra. }
    assert (V : forall x, not_predicted (nth i ths NaN) x = true -> not_predicted (nth j ths NaN) x = true).
    { intros x. unfold not_predicted. intro X. destruct (num_ltb (nth j ths NaN) (sc_score x)) eqn:Y; [|reflexivity].
      apply U in Y. unfold predicted in Y. rewrite Y in X. discriminate. }
    split; [apply (filter_weight_mono (positive_weight true NaN)); auto; apply P|].
    split; [apply (filter_weight_mono (negative_weight true NaN)); auto; apply N|].
    split; [apply (filter_weight_mono (positive_weight true NaN)); auto; apply P|].
    apply (filter_weight_mono (negative_weight true NaN)); auto; apply N.
Qed.

Definition proper_bucket (b : bucket) : Prop := (0 <= t_labels (snd b))%Qc /\ (t_labels (snd b) <= t_examples (snd b))%Qc.

Lemma totals_sum_proper l : (forall u, In u l -> (0 <= t_labels u)%Qc /\ (t_labels u <= t_examples u)%Qc) ->
  (0 <= t_labels (totals_sum l))%Qc /\ (t_labels (totals_sum l) <= t_examples (totals_sum l))%Qc.
Proof.
  induction l as [|u l IH]; intro H; [split; discriminate|]. cbn [totals_sum fold_right totals_plus t_labels t_examples].
  fold (totals_sum l). destruct (H u) as [A B]; [left; auto|]. destruct IH as [C D]; [intros; apply H; right; auto|]. split; qc_lra.
Qed.

Lemma rebin_proper r h nb : ascending h -> (forall b, In b h -> proper_bucket b) ->
  forall b, In b (rebin r h nb 0%Qc 1%Qc) -> proper_bucket b.
Proof.
  intros AS H b I. assert (LE : (0 <= 1)%Qc) by discriminate.
  destruct r as [|t r].
  - unfold rebin in I. cbn [tl] in I.
    assert (G : forall l off cur, (0 <= t_labels cur)%Qc /\ (t_labels cur <= t_examples cur)%Qc -> (forall b, In b l -> proper_bucket b) ->
      forall b, In b (rebin_loop (bucket_pred nb 0%Qc 1%Qc) l off cur []) -> proper_bucket b).
    { clear. induction l as [|[id u] l IH]; intros off cur C H b I; cbn [rebin_loop pad] in I.
      - destruct I as [<-|[]]. exact C.
      - apply IH in I; auto.
        + destruct (H (id, u)) as [A B]; [left; auto|]. cbn [snd] in A, B. cbn [totals_plus t_labels t_examples]. destruct C. split; qc_lra.
        + intros; apply H; right; auto. }
    apply (G h 0 totals_zero); auto. split; discriminate.
  - rewrite rebin_groups in I by (auto; discriminate). apply in_map_iff in I. destruct I as (i & <- & _). unfold proper_bucket. cbn [snd].
    apply totals_sum_proper. intros u Iu. apply in_map_iff in Iu. destruct Iu as (b & <- & Ib). apply filter_In in Ib. apply H. apply Ib.
Qed.

Lemma skipn_weight (f : bucket -> Qc) g k k' : (forall b, In b g -> (0 <= f b)%Qc) -> k <= k' ->
  (qsum (map f (skipn k' g)) <= qsum (map f (skipn k g)))%Qc /\ (qsum (map f (firstn k g)) <= qsum (map f (firstn k' g)))%Qc.
Proof.
  revert k k'. induction g as [|b g IH]; intros k k' H LE.
  - rewrite !skipn_nil, !firstn_nil. split; apply Qcle_refl.
  - assert (B : (0 <= f b)%Qc) by (apply H; left; auto).
    assert (G : forall b, In b g -> (0 <= f b)%Qc) by (intros; apply H; right; auto).
    assert (S : forall n, (0 <= qsum (map f (firstn n g)))%Qc).
    { intro n. apply qsum_nonneg. intros x Hx. apply in_map_iff in Hx. destruct Hx as (y & <- & Hy). apply G.
      rewrite <- (firstn_skipn n g). apply in_or_app. auto. }
    destruct k as [|k], k' as [|k']; try lia.
    + split; apply Qcle_refl.
    + cbn [skipn firstn map qsum fold_right]. change (fold_right Qcplus (Q2Qc 0)) with qsum.
      specialize (S k'). destruct (IH 0 k' G ltac:(lia)) as [I _]. cbn [skipn] in I. split; qc_lra.
    + cbn [skipn firstn map qsum fold_right]. change (fold_right Qcplus (Q2Qc 0)) with qsum.
      destruct (IH k k' G ltac:(lia)) as [I1 I2]. split; [exact I1|qc_lra].
Qed.

Lemma C15_histogram_monotone_pf :
  forall ths h nb, ths <> [] -> ~ In NaN ths -> ascending h -> h <> [] ->
    (forall b, In b h -> (0 <= t_labels (snd b) <= t_examples (snd b))%Qc) ->
    (forall t, In t ths -> num_ltb t (Fin (1 + Q2Qc (1 # 10000000))%Qc) = true) \/
    num_ltb (nth 0 ths NaN) (Fin 0%Qc) = true ->
    exists cm, histogram_result ths h nb = Ok cm /\
      forall i j, i <= j < length ths -> num_leb (nth i ths NaN) (nth j ths NaN) = true ->
        (tp_at cm j <= tp_at cm i /\ fp_at cm j <= fp_at cm i /\
         fn_at cm i <= fn_at cm j /\ tn_at cm i <= tn_at cm j)%Qc.
Proof.
  intros ths h nb NE NN AS NH PB H.
  destruct (histogram_result_cells ths h nb NE NN AS (or_introl NH)) as (g & c & m & E & _ & P & N & _ & _ & _ & _ & EG & _ & M).
  { destruct H as [H|H]; [left|right; exact H]. intros t It. unfold above. fold BCM_EPS in H.
    rewrite num_leb_gt by (try discriminate; intro; subst; auto). rewrite (H t It). reflexivity. }
  exists m. split; [exact E|]. intros i j [Hij Hj] LE.
  assert (PG : forall b, In b g -> proper_bucket b).
  { intros b Ib. rewrite EG in Ib. destruct (Nat.eqb (length ths) 1 && num_ltb (nth 0 ths NaN) (Fin 0%Qc)); [apply PB; auto|].
    destruct (rebin_thresholds ths); [|contradiction]. eapply rebin_proper; eauto. }
  destruct (M i ltac:(lia)) as (-> & -> & -> & ->), (M j Hj) as (-> & -> & -> & ->).
  assert (F1 : forall b, In b g -> (0 <= t_labels (snd b))%Qc) by (intros b Ib; apply PG; auto).
  assert (F2 : forall b, In b g -> (0 <= t_examples (snd b) - t_labels (snd b))%Qc).
  { intros b Ib. destruct (PG b Ib). qc_lra. }
  assert (AM : above (nth i ths NaN) = true -> above (nth j ths NaN) = true).
  { unfold above. intro X. eapply num_leb_trans; eauto. }
  assert (Z : forall (f : bucket -> Qc) l, (forall b, In b l -> (0 <= f b)%Qc) -> (0 <= qsum (map f l))%Qc).
  { intros f l G. apply qsum_nonneg. intros x Hx. apply in_map_iff in Hx. destruct Hx as (y & <- & Hy). auto. }
  assert (SK : forall k b, In b (skipn k g) -> In b g).
  { intros k b X. rewrite <- (firstn_skipn k g). apply in_or_app; auto. }
  assert (FA : forall f : bucket -> Qc, (forall b, In b g -> (0 <= f b)%Qc) -> forall k, (qsum (map f (firstn k g)) <= qsum (map f g))%Qc).
  { intros f G k. assert (X : qsum (map f g) = (qsum (map f (firstn k g)) + qsum (map f (skipn k g)))%Qc).
    { rewrite <- qsum_app, <- map_app, firstn_skipn. reflexivity. }
    specialize (Z f (skipn k g) (fun b Hb => G b (SK k b Hb))). rewrite X. qc_lra. }
  unfold positives, negatives.
  destruct (above (nth i ths NaN)) eqn:Ai.
  - rewrite AM by auto. repeat split; apply Qcle_refl.
  - destruct (above (nth j ths NaN)) eqn:Aj.
    + split; [apply Z; intros; apply F1; eapply SK; eauto|].
      split; [apply Z; intros; apply F2; eapply SK; eauto|].
      split; apply FA; auto.
    + destruct (skipn_weight _ g (c + i) (c + j) F1 ltac:(lia)) as [A1 A2].
      destruct (skipn_weight _ g (c + i) (c + j) F2 ltac:(lia)) as [B1 B2]. auto.
Qed.

Lemma C66_example_ids_pf :
  forall ap ths limit fr weighted lk pk m o s ex w,
    NoDup ths -> 1 <= limit ->
    (forall e, In e (inputs s) -> well_formed weighted fr m o ex w (snd e)) ->
    exists cm xm,
      outcome (confusion_combiner ap ths limit (histogram_options None false weighted fr None) lk pk m o) s = Ok (cm, xm) /\
      x_thresholds xm = ths /\
      forall i, i < length ths ->
        let ids c := flat_map (fun e => if existsb (takes_part fr (nth i ths NaN) c) (examples_of ex w (snd e))
                                        then match fst e with Some x => [x] | None => [] end else []) (inputs s) in
        nth i (x_tp xm) [] = firstn limit (ids TP) /\ nth i (x_fn xm) [] = firstn limit (ids FN) /\
        nth i (x_fp xm) [] = firstn limit (ids FP) /\ nth i (x_tn xm) [] = firstn limit (ids TN).
Proof.
  intros ap ths limit fr weighted lk pk m o s ex w ND LI HG.
  destruct (confusion_run ap ths limit fr weighted lk pk m o s ex w ND LI HG) as (cm & xm & E & _ & T & _ & _ & _ & _ & H).
  exists cm, xm. do 2 (split; [auto|]). intros i Hi. apply (H i Hi).
Qed.

Lemma C67_repeated_threshold_refuted_pf :
  exists s, forall r1 r2,
    outcome (confusion_combiner ap_sort [Fin (Q2Qc (1#2))] 1 (histogram_options None false true true None) "" "" "" "") s = Ok r1 ->
    outcome (confusion_combiner ap_sort [Fin (Q2Qc (1#2)); Fin (Q2Qc (1#2))] 1 (histogram_options None false true true None) "" "" "" "") s = Ok r2 ->
    tp_at (fst r1) 0 = 1%Qc /\ tp_at (fst r2) 0 = qz 2 /\ tp_at (fst r2) 1 = qz 2.
Proof.
  exists (Bundle [(None, plain 1 (9#10) 1)]). intros r1 r2 H1 H2.
  vm_compute in H1. vm_compute in H2. inversion H1; inversion H2; subst. repeat split; qc_ex.
Qed.

Lemma C67_repeated_threshold_partial_pf :
  forall ap ths1 ths2 limit fr weighted lk pk m o s ex w,
    NoDup ths1 -> NoDup ths2 -> 1 <= limit ->
    (forall e, In e (inputs s) -> well_formed weighted fr m o ex w (snd e)) ->
    exists r1 r2,
      outcome (confusion_combiner ap ths1 limit (histogram_options None false weighted fr None) lk pk m o) s = Ok r1 /\
      outcome (confusion_combiner ap ths2 limit (histogram_options None false weighted fr None) lk pk m o) s = Ok r2 /\
      forall i j, i < length ths1 -> j < length ths2 -> nth i ths1 NaN = nth j ths2 NaN ->
        tp_at (fst r1) i = tp_at (fst r2) j /\ fn_at (fst r1) i = fn_at (fst r2) j /\
        fp_at (fst r1) i = fp_at (fst r2) j /\ tn_at (fst r1) i = tn_at (fst r2) j.
Proof.
  intros ap ths1 ths2 limit fr weighted lk pk m o s ex w N1 N2 LI HG.
  destruct (C14_confusion_counts_pf ap ths1 limit fr weighted lk pk m o s ex w N1 LI HG) as (c1 & x1 & E1 & _ & _ & _ & _ & _ & H1).
  destruct (C14_confusion_counts_pf ap ths2 limit fr weighted lk pk m o s ex w N2 LI HG) as (c2 & x2 & E2 & _ & _ & _ & _ & _ & H2).
  exists (c1, x1), (c2, x2). do 2 (split; [auto|]). intros i j Hi Hj E. cbn [fst].
  destruct (H1 i Hi) as (-> & -> & -> & ->), (H2 j Hj) as (-> & -> & -> & ->). rewrite E. auto.
Qed.

(** The row of a matrix at a threshold; zeros where it has none. *)

Definition cells_at (m : matrices) (t : num) : Qc * Qc * Qc * Qc :=
  match find (fun k => num_eqb (nth k (m_thresholds m) NaN) t) (seq 0 (length (m_thresholds m))) with
  | Some k => (nth k (m_tp m) 0%Qc, nth k (m_tn m) 0%Qc, nth k (m_fp m) 0%Qc, nth k (m_fn m) 0%Qc)
  | None => (0, 0, 0, 0)%Qc
  end.

Definition proper_matrices (m : matrices) : Prop :=
  let n := length (m_thresholds m) in
  length (m_tp m) = n /\ length (m_tn m) = n /\ length (m_fp m) = n /\ length (m_fn m) = n /\
  StronglySorted (fun a b => num_ltb a b = true) (m_thresholds m) /\ ~ In NaN (m_thresholds m).

Definition half : num := Fin (Q2Qc (1#2)).

Definition one_row (t : num) : matrices := Matrices [t] [1%Qc] [1%Qc] [1%Qc] [1%Qc].

Lemma C43_elementwise_refuted_pf :
  exists self other,
    proper_matrices self /\ proper_matrices other /\
    (forall t, In t (m_thresholds self) -> In t (m_thresholds other)) /\
    forall fuel, 10 <= fuel -> elementwise Qcplus fuel self other = Some (Err IndexError).
Proof.
  exists (one_row half), (Matrices [Fin (Q2Qc (1#10)); Fin (Q2Qc (1#5)); half] [1%Qc; 1%Qc; 1%Qc] [1%Qc; 1%Qc; 1%Qc] [1%Qc; 1%Qc; 1%Qc] [1%Qc; 1%Qc; 1%Qc]).
  split; [|split; [|split]].
  - do 4 (split; [reflexivity|]). split; [repeat constructor|]. intros [X|[]]; discriminate.
  - do 4 (split; [reflexivity|]). split; [repeat constructor|]. intros [X|[X|[X|[]]]]; discriminate.
  - simpl. tauto.
  - intros fuel H. do 10 (destruct fuel as [|fuel]; [lia|]). vm_compute. reflexivity.
Qed.

Lemma row_at_ok m i : proper_matrices m -> i < length (m_thresholds m) ->
  row_at m i = Ok (nth i (m_tp m) 0%Qc, nth i (m_tn m) 0%Qc, nth i (m_fp m) 0%Qc, nth i (m_fn m) 0%Qc).
Proof.
  intros (L1 & L2 & L3 & L4 & _) Hi. unfold row_at, nth_ok.
  rewrite !(nth_error_nth' _ 0%Qc) by lia. reflexivity.
Qed.

Lemma num_eqb_eq a b : a <> NaN -> (num_eqb a b = true <-> a = b).
Proof.
  intro N. destruct a, b; simpl; try (split; congruence).
  rewrite Qc_eqb_eq. split; [intros ->; auto|intro H; inversion H; auto].
Qed.

Lemma SS_nth (l : list num) : StronglySorted (fun a b => num_ltb a b = true) l ->
  forall i j, i < j -> j < length l -> num_ltb (nth i l NaN) (nth j l NaN) = true.
Proof.
  induction 1 as [|x l S IH F]; intros i j Hij Hj; [simpl in Hj; lia|].
  destruct j as [|j]; [lia|]. simpl in Hj. destruct i as [|i].
  - cbn [nth]. rewrite Forall_forall in F. apply F. apply nth_In. lia.
  - cbn [nth]. apply IH; lia.
Qed.

Lemma num_ltb_irrefl a : num_ltb a a = false.
Proof. destruct a; try reflexivity. simpl. apply Qc_ltb_ge. apply Qcle_refl. Qed.

Lemma num_ltb_trans a b c : num_ltb a b = true -> num_ltb b c = true -> num_ltb a c = true.
Proof.
  destruct a as [| |x|], b as [| |y|], c as [| |z|]; simpl; intros; try congruence.
  apply Qc_ltb_lt in H, H0. apply Qc_ltb_lt. eapply Qclt_trans; eauto.
Qed.

Lemma cells_at_row m j : proper_matrices m -> j < length (m_thresholds m) ->
  cells_at m (nth j (m_thresholds m) NaN) = (nth j (m_tp m) 0%Qc, nth j (m_tn m) 0%Qc, nth j (m_fp m) 0%Qc, nth j (m_fn m) 0%Qc).
Proof.
  intros (_ & _ & _ & _ & SS & NN) Hj. unfold cells_at.
  assert (NJ : forall k, k < length (m_thresholds m) -> nth k (m_thresholds m) NaN <> NaN).
  { intros k Hk X. apply NN. rewrite <- X. apply nth_In; auto. }
  destruct (find _ _) as [k|] eqn:F.
  - apply find_some in F. destruct F as [I E]. apply in_seq in I. apply num_eqb_eq in E; [|apply NJ; lia].
    assert (k = j); [|subst; reflexivity].
    destruct (Nat.lt_trichotomy k j) as [L|[L|L]]; auto.
    + pose proof (SS_nth _ SS k j L Hj) as X. rewrite E, num_ltb_irrefl in X. discriminate.
    + pose proof (SS_nth _ SS j k L ltac:(lia)) as X. rewrite E, num_ltb_irrefl in X. discriminate.
  - exfalso. assert (IJ : In j (seq 0 (length (m_thresholds m)))) by (apply in_seq; lia). assert (X := find_none _ _ F j IJ).
    cbn beta in X. assert (Y : num_eqb (nth j (m_thresholds m) NaN) (nth j (m_thresholds m) NaN) = true) by (apply num_eqb_eq; auto).
    congruence.
Qed.

Lemma cells_at_none m t : ~ In NaN (m_thresholds m) -> ~ In t (m_thresholds m) -> cells_at m t = (0, 0, 0, 0)%Qc.
Proof.
  intros NN NI. unfold cells_at. destruct (find _ _) as [k|] eqn:F; [|reflexivity].
  apply find_some in F. destruct F as [I E]. apply in_seq in I.
  assert (J : In (nth k (m_thresholds m) NaN) (m_thresholds m)) by (apply nth_In; lia).
  apply num_eqb_eq in E; [subst; contradiction|]. intro X. rewrite X in J. contradiction.
Qed.

Lemma elementwise_loop_ok op self other : proper_matrices self -> proper_matrices other ->
  (forall t, In t (m_thresholds other) -> In t (m_thresholds self)) ->
  forall n i j out fuel, i + n = length (m_thresholds self) -> j <= length (m_thresholds other) ->
    (forall k, j <= k < length (m_thresholds other) -> exists l, i <= l < length (m_thresholds self) /\
        nth k (m_thresholds other) NaN = nth l (m_thresholds self) NaN) ->
    (forall k, k < j -> num_ltb (nth k (m_thresholds other) NaN) (nth i (m_thresholds self) NaN) = true \/ n = 0) ->
    n < fuel ->
    elementwise_loop op fuel self other i j out =
    Some (Ok (rev (map (fun l => (nth l (m_thresholds self) NaN,
                                  row_op op (cells_at self (nth l (m_thresholds self) NaN))
                                            (cells_at other (nth l (m_thresholds self) NaN)))) (seq i n)) ++ out)).
Proof.
  intros PS PO SUB. pose proof PS as (_ & _ & _ & _ & SSs & NNs). pose proof PO as (_ & _ & _ & _ & SSo & NNo).
  set (s := m_thresholds self) in *. set (o := m_thresholds other) in *.
  induction n as [|n IH]; intros i j out fuel Hi Hj R B HF; (destruct fuel as [|fuel]; [lia|]); cbn [elementwise_loop]; fold s o.
  - assert (j = length o).
    { destruct (Nat.eq_dec j (length o)); auto. destruct (R j) as (l & ? & _); lia. }
    subst j. replace (Nat.ltb i (length s)) with false by (symmetry; apply Nat.ltb_ge; lia).
    replace (Nat.ltb (length o) (length o)) with false by (symmetry; apply Nat.ltb_ge; lia). reflexivity.
  - assert (Hi' : i < length s) by lia.
    assert (Ni : nth i s NaN <> NaN) by (intro X; apply NNs; rewrite <- X; apply nth_In; auto).
    replace (Nat.ltb i (length s)) with true by (symmetry; apply Nat.ltb_lt; auto). cbn [andb negb seq map rev].
    rewrite <- app_assoc. cbn [app].
    assert (RS : row_at self i = Ok (cells_at self (nth i s NaN))).
    { rewrite (row_at_ok self i PS Hi'). unfold s. rewrite cells_at_row by auto. reflexivity. }
    destruct (Nat.ltb_spec j (length o)) as [Lj|Lj].
    + assert (Nj : nth j o NaN <> NaN) by (intro X; apply NNo; rewrite <- X; apply nth_In; auto).
      destruct (R j ltac:(lia)) as (l & Hl & El).
      destruct (num_eqb (nth i s NaN) (nth j o NaN)) eqn:EQ; cbn [andb].
      * apply num_eqb_eq in EQ; auto.
        rewrite RS, (row_at_ok other j PO Lj).
        replace (nth j (m_tp other) 0%Qc, nth j (m_tn other) 0%Qc, nth j (m_fp other) 0%Qc, nth j (m_fn other) 0%Qc)
          with (cells_at other (nth i s NaN)).
        2:{ rewrite EQ. unfold o. apply cells_at_row; auto. }
        apply IH; try lia.
        -- intros k Hk. destruct (R k ltac:(lia)) as (l' & Hl' & El'). exists l'. split; auto.
           destruct (Nat.eq_dec l' i) as [->|]; [|lia].
           pose proof (SS_nth o SSo j k ltac:(lia) ltac:(lia)) as X. rewrite El', <- EQ, num_ltb_irrefl in X. discriminate.
        -- intros k Hk. destruct n as [|n]; [right; reflexivity|left].
           pose proof (SS_nth s SSs i (S i) ltac:(lia) ltac:(lia)) as X.
           destruct (Nat.eq_dec k j) as [->|]; [rewrite <- EQ; exact X|].
           destruct (B k ltac:(lia)) as [Y|Y]; [|discriminate].
           eapply num_ltb_trans; [exact Y|]. exact X.
      * assert (LI : i < l).
        { destruct (Nat.eq_dec l i) as [->|]; [|lia]. exfalso.
          assert (num_eqb (nth i s NaN) (nth j o NaN) = true) by (apply num_eqb_eq; auto). congruence. }
        assert (LT : num_ltb (nth i s NaN) (nth j o NaN) = true) by (rewrite El; apply SS_nth; auto; lia).
        cbn [orb]. rewrite LT. rewrite RS.
        replace zero_row with (cells_at other (nth i s NaN)).
        2:{ apply cells_at_none; auto. fold o. intro X. apply (In_nth _ _ NaN) in X. destruct X as (k & Hk & Ek).
            destruct (Nat.lt_ge_cases k j) as [L|L].
            - destruct (B k L) as [Y|Y]; [|discriminate]. rewrite Ek, num_ltb_irrefl in Y. discriminate.
            - assert (num_ltb (nth i s NaN) (nth k o NaN) = true).
              { destruct (Nat.eq_dec k j) as [->|]; auto. eapply num_ltb_trans; [exact LT|].
                apply SS_nth; auto; lia. }
              rewrite Ek, num_ltb_irrefl in H. discriminate. }
        apply IH; try lia.
        -- intros k Hk. destruct (R k ltac:(lia)) as (l' & Hl' & El'). exists l'. split; auto.
           destruct (Nat.eq_dec l' i) as [->|]; [|lia]. exfalso.
           destruct (Nat.eq_dec k j) as [->|].
           ++ rewrite El', num_ltb_irrefl in LT. discriminate.
           ++ pose proof (SS_nth o SSo j k ltac:(lia) ltac:(lia)) as X. rewrite El' in X.
              pose proof (num_ltb_trans _ _ _ LT X) as Y. rewrite num_ltb_irrefl in Y. discriminate.
        -- intros k Hk. destruct n as [|n]; [right; reflexivity|left].
           destruct (B k Hk) as [Y|Y]; [|discriminate].
           eapply num_ltb_trans; [exact Y|]. apply SS_nth; auto; lia.
    + assert (j = length o) by lia. subst j. cbn [andb orb negb]. rewrite RS.
      replace zero_row with (cells_at other (nth i s NaN)).
      2:{ apply cells_at_none; auto. fold o. intro X. apply (In_nth _ _ NaN) in X. destruct X as (k & Hk & Ek).
          destruct (B k Hk) as [Y|Y]; [|discriminate]. rewrite Ek, num_ltb_irrefl in Y. discriminate. }
      apply IH; try lia.
      intros k Hk. destruct n as [|n]; [right; reflexivity|left].
        destruct (B k Hk) as [Y|Y]; [|discriminate].
        eapply num_ltb_trans; [exact Y|]. apply SS_nth; auto; lia.
Qed.

Lemma C43_elementwise_partial_pf :
  forall op self other, proper_matrices self -> proper_matrices other ->
    (forall t, In t (m_thresholds other) -> In t (m_thresholds self)) ->
    exists m, (forall fuel, length (m_thresholds self) < fuel -> elementwise op fuel self other = Some (Ok m)) /\
      m_thresholds m = m_thresholds self /\
      forall i, i < length (m_thresholds self) ->
        exists a b c d, cells_at other (nth i (m_thresholds self) NaN) = (a, b, c, d) /\
          tp_at m i = op (tp_at self i) a /\ tn_at m i = op (tn_at self i) b /\
          fp_at m i = op (fp_at self i) c /\ fn_at m i = op (fn_at self i) d.
Proof.
  intros op self other PS PO SUB. set (s := m_thresholds self).
  set (f := fun l => (nth l s NaN, row_op op (cells_at self (nth l s NaN)) (cells_at other (nth l s NaN)))).
  exists (to_matrices (map f (seq 0 (length s)))). split; [|split].
  - intros fuel HF. unfold elementwise. rewrite (elementwise_loop_ok op self other PS PO SUB (length s) 0 0 [] fuel); auto; try lia.
    + cbn [option_map bind]. rewrite app_nil_r, rev_involutive. reflexivity.
    + intros k Hk. assert (I : In (nth k (m_thresholds other) NaN) s) by (apply SUB, nth_In; lia).
      apply (In_nth _ _ NaN) in I. destruct I as (l & Hl & El). exists l. split; [fold s; lia|auto].
  - unfold to_matrices. cbn [m_thresholds]. rewrite map_map. unfold f. cbn [fst].
    apply (nth_ext _ _ NaN NaN); [rewrite map_length, seq_length; reflexivity|].
    intros n Hn. rewrite map_length, seq_length in Hn.
    rewrite (nth_indep _ NaN (nth 0 s NaN)) by (rewrite map_length, seq_length; auto).
    rewrite (map_nth (fun l => nth l s NaN)), seq_nth by auto. reflexivity.
  - intros i Hi. fold s in Hi. pose proof (cells_at_row self i PS Hi) as CS. fold s in CS.
    destruct (cells_at other (nth i s NaN)) as [[[a b] c] d] eqn:CO.
    exists a, b, c, d. split; [reflexivity|].
    unfold tp_at, tn_at, fp_at, fn_at, to_matrices. cbn [m_tp m_tn m_fp m_fn]. rewrite !map_map.
    assert (NTH : forall g : num * (Qc * Qc * Qc * Qc) -> Qc, nth i (map (fun x => g (f x)) (seq 0 (length s))) 0%Qc = g (f i)).
    { intro g. rewrite (nth_indep _ 0%Qc (g (f 0))) by (rewrite map_length, seq_length; auto).
      rewrite (map_nth (fun x => g (f x))), seq_nth by auto. reflexivity. }
    rewrite (NTH (fun x => fst (fst (fst (snd x))))), (NTH (fun x => snd (fst (fst (snd x))))),
            (NTH (fun x => snd (fst (snd x)))), (NTH (fun x => snd (snd x))).
    unfold f. rewrite CS, CO. cbn [row_op fst snd]. auto.
Qed.
