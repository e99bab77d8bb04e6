(* Proofs of the theorems restated in Text_Properties.v. *)
From Coq Require Import String Ascii.
From Coq Require Import Sorted.
From Verif Require Import Base BaseFacts Beam BeamFacts Keys_Model Keys_Main Evaluator_Model Evaluator_Main Classes_Main Text_Model.
Local Open Scope string_scope.
Local Open Scope list_scope.

(* C188 - C199: BLEU, ROUGE and samples of a fixed size. *)

Local Notation gram := (list string).

(** [l] begins with [g]. *)

Fixpoint begins (g l : list string) : bool :=
  match g, l with
  | [], _ => true
  | x :: g, y :: l => String.eqb x y && begins g l
  | _ :: _, [] => false
  end.

(** How often the run of words [g] occurs in [l]. *)

Fixpoint occurs (g l : list string) : nat :=
  match l with
  | [] => 0
  | _ :: t => (if begins g l then 1 else 0) + occurs g t
  end.

(** How often it may be credited: as often as in the reference that has most of it. *)

Definition most (g : list string) (refs : list (list string)) : nat := list_max (map (occurs g) refs).

(** Number of runs of n words of [hyp] that are credited. *)

Definition clipped (n : nat) (hyp : list string) (refs : list (list string)) (k : nat) : Prop :=
  exists gs, NoDup gs /\ (forall g, In g gs <-> length g = n /\ 0 < occurs g hyp) /\
    k = list_sum (map (fun g => Nat.min (occurs g hyp) (most g refs)) gs).

Definition apart (a b : nat) : nat := Nat.max a b - Nat.min a b.

(** [r] is the first of the lengths nearest to [n]. *)

Definition nearest (n : nat) (lens : list nat) (r : nat) : Prop :=
  exists before after, lens = before ++ r :: after /\
    (forall x, In x before -> apart r n < apart x n) /\ (forall x, In x after -> apart r n <= apart x n).

(** A hypothesis and its references, in words. *)

Record segment := Segment { sg_hyp : list string; sg_refs : list (list string) }.

Lemma gram_eqb_eq a b : gram_eqb a b = true <-> a = b.
Proof.
  revert b. induction a as [|x a IH]; intros [|y b]; cbn [gram_eqb]; try (split; [discriminate|congruence]); [tauto|].
  rewrite andb_true_iff, String.eqb_eq, IH. split; [intros [-> ->]; reflexivity|]. intros E. injection E as -> ->. auto.
Qed.

Lemma gram_eqb_refl a : gram_eqb a a = true.
Proof. apply gram_eqb_eq. reflexivity. Qed.

Lemma counted_dset c g n h : counted (dset gram_eqb c g n) h = if gram_eqb h g then n else counted c h.
Proof. unfold counted. rewrite (dget_dset gram_eqb gram_eqb_eq). destruct (gram_eqb h g); reflexivity. Qed.

Definition tally (g : gram) (l : list gram) : nat := length (filter (gram_eqb g) l).

Lemma counter_facts l : forall c, NoDup (map fst c) -> (forall g n, In (g, n) c -> 0 < n) ->
  let r := fold_left (fun c g => dset gram_eqb c g (counted c g + 1)) l c in
  NoDup (map fst r) /\ (forall g n, In (g, n) r -> 0 < n) /\ (forall g, counted r g = counted c g + tally g l) /\
  (forall p, list_sum (map snd (filter (fun gn => p (fst gn)) r)) = list_sum (map snd (filter (fun gn => p (fst gn)) c)) + length (filter p l)).
Proof.
  induction l as [|x l IH]; intros c N P; cbn [fold_left].
  - cbv zeta. split; [exact N|]. split; [exact P|]. unfold tally. cbn [filter length]. split; intros; lia.
  - specialize (IH (dset gram_eqb c x (counted c x + 1))).
    assert (N' : NoDup (map fst (dset gram_eqb c x (counted c x + 1)))) by (apply (dset_NoDup gram_eqb gram_eqb_eq); exact N).
    assert (P' : forall g n, In (g, n) (dset gram_eqb c x (counted c x + 1)) -> 0 < n).
    { intros g n I. apply (dget_In_NoDup gram_eqb gram_eqb_eq) in I; [|exact N']. rewrite (dget_dset gram_eqb gram_eqb_eq) in I.
      destruct (gram_eqb g x); [injection I as <-; lia|]. apply (dget_In gram_eqb gram_eqb_eq) in I. eapply P; eauto. }
    destruct (IH N' P') as (A & B & C & D). cbv zeta. split; [exact A|]. split; [exact B|]. split.
    + intros g. rewrite C, counted_dset. unfold tally. cbn [filter]. destruct (gram_eqb g x) eqn:E; [|lia].
      apply gram_eqb_eq in E. subst x. cbn [length]. lia.
    + intros p. rewrite D. cbn [filter].
      assert (X : list_sum (map snd (filter (fun gn => p (fst gn)) (dset gram_eqb c x (counted c x + 1)))) =
                  list_sum (map snd (filter (fun gn => p (fst gn)) c)) + if p x then 1 else 0).
      { clear. unfold counted. induction c as [|[g n] c IH]; cbn [dset dget].
        - cbn [filter fst]. destruct (p x); reflexivity.
        - destruct (gram_eqb x g) eqn:E.
          + apply gram_eqb_eq in E. subst g. cbn [filter fst]. destruct (p x); cbn [map snd list_sum fold_right]; [|lia]. unfold list_sum. lia.
          + cbn [filter fst]. destruct (p g); cbn [map snd list_sum fold_right]; [|exact IH]. unfold list_sum in *. lia. }
      rewrite X. destruct (p x); cbn [length]; lia.
Qed.

Lemma windows_cons n x t : 1 <= n ->
  windows n (x :: t) = (if Nat.leb n (length (x :: t)) then [firstn n (x :: t)] else []) ++ windows n t.
Proof.
  intros N. unfold windows. cbn [length]. destruct (Nat.leb_spec n (S (length t))) as [L|L].
  - replace (S (length t) + 1 - n) with (S (length t + 1 - n)) by lia. cbn [seq map app skipn]. f_equal.
    rewrite <- seq_shift, map_map. apply map_ext. intros i. reflexivity.
  - replace (S (length t) + 1 - n) with 0 by lia. replace (length t + 1 - n) with 0 by lia. reflexivity.
Qed.

Lemma windows_length n l : forall g, 1 <= n -> In g (windows n l) -> length g = n.
Proof.
  intros g N I. unfold windows in I. apply in_map_iff in I. destruct I as (i & <- & I). apply in_seq in I.
  rewrite firstn_length, skipn_length. lia.
Qed.

Lemma begins_firstn g : forall l, begins g l = (Nat.leb (length g) (length l) && gram_eqb g (firstn (length g) l)).
Proof.
  induction g as [|x g IH]; intros l; [reflexivity|]. destruct l as [|y l]; [reflexivity|].
  cbn [begins length firstn gram_eqb Nat.leb]. rewrite IH. destruct (String.eqb x y), (Nat.leb (length g) (length l)); reflexivity.
Qed.

Lemma tally_windows n g l : 1 <= n -> tally g (windows n l) = if Nat.eqb (length g) n then occurs g l else 0.
Proof.
  intros N. destruct (Nat.eqb_spec (length g) n) as [E|E].
  - induction l as [|x t IH].
    + unfold windows. cbn [length occurs]. replace (0 + 1 - n) with 0 by lia. reflexivity.
    + rewrite windows_cons by exact N. unfold tally in *. rewrite filter_app, app_length. rewrite IH.
      cbn [occurs]. rewrite begins_firstn, E. destruct (Nat.leb n (length (x :: t))); [|reflexivity].
      cbn [andb filter]. destruct (gram_eqb g (firstn n (x :: t))); reflexivity.
  - unfold tally. destruct (filter (gram_eqb g) (windows n l)) as [|h r] eqn:F; [reflexivity|]. exfalso.
    assert (I : In h (filter (gram_eqb g) (windows n l))) by (rewrite F; left; reflexivity).
    apply filter_In in I. destruct I as [I G]. apply gram_eqb_eq in G. subst h. apply windows_length in I; auto.
Qed.

Lemma tally_all g l : forall m a, 1 <= a ->
  tally g (flat_map (fun n => windows n l) (seq a m)) = if Nat.leb a (length g) && Nat.ltb (length g) (a + m) then occurs g l else 0.
Proof.
  induction m as [|m IH]; intros a A; cbn [seq flat_map].
  - unfold tally. cbn [filter length]. destruct (Nat.leb_spec a (length g)), (Nat.ltb_spec (length g) (a + 0)); cbn [andb]; try lia; reflexivity.
  - unfold tally in *. rewrite filter_app, app_length. rewrite IH by lia. pose proof (tally_windows a g l A) as TW. unfold tally in TW. rewrite TW.
    destruct (Nat.eqb_spec (length g) a), (Nat.leb_spec a (length g)), (Nat.leb_spec (S a) (length g)), (Nat.ltb_spec (length g) (S a + m)), (Nat.ltb_spec (length g) (a + S m)); cbn [andb]; lia.
Qed.

Lemma lengths_all n l : forall m a, 1 <= a ->
  length (filter (fun g => Nat.eqb (length g) n) (flat_map (fun n => windows n l) (seq a m))) =
  if Nat.leb a n && Nat.ltb n (a + m) then length l + 1 - n else 0.
Proof.
  assert (W : forall k, 1 <= k -> length (filter (fun g : gram => Nat.eqb (length g) n) (windows k l)) = if Nat.eqb k n then length l + 1 - n else 0).
  { intros k K. pose proof (windows_length k l) as WL.
    assert (WN : length (windows k l) = length l + 1 - k) by (unfold windows; rewrite map_length, seq_length; reflexivity).
    destruct (Nat.eqb_spec k n) as [->|E].
    - rewrite <- WN. clear WN. induction (windows n l) as [|g r IH]; [reflexivity|]. cbn [filter]. rewrite (WL g K (or_introl eq_refl)), Nat.eqb_refl. cbn [length]. f_equal. apply IH. intros; apply WL; [assumption|right; assumption].
    - clear WN. induction (windows k l) as [|g r IH]; [reflexivity|]. cbn [filter]. rewrite (WL g K (or_introl eq_refl)).
      destruct (Nat.eqb_spec k n); [congruence|]. apply IH. intros; apply WL; [assumption|right; assumption]. }
  induction m as [|m IH]; intros a A; cbn [seq flat_map].
  - cbn [filter length]. destruct (Nat.leb_spec a n), (Nat.ltb_spec n (a + 0)); cbn [andb]; try lia; reflexivity.
  - rewrite filter_app, app_length, IH, W by lia.
    destruct (Nat.eqb_spec a n), (Nat.leb_spec a n), (Nat.leb_spec (S a) n), (Nat.ltb_spec n (S a + m)), (Nat.ltb_spec n (a + S m)); cbn [andb]; lia.
Qed.

Lemma ngrams_facts m l :
  let c := fst (extract_all_word_ngrams m l) in
  NoDup (map fst c) /\ (forall g n, In (g, n) c -> 0 < n) /\
  (forall g, counted c g = if Nat.leb 1 (length g) && Nat.leb (length g) m then occurs g l else 0) /\
  (forall n, 1 <= n <= m -> list_sum (map snd (filter (fun gn => Nat.eqb (length (fst gn)) n) c)) = length l + 1 - n).
Proof.
  unfold extract_all_word_ngrams, counter. cbn [fst].
  destruct (counter_facts (flat_map (fun n => windows n l) (seq 1 m)) []) as (A & B & C & D); [constructor|intros g n []|].
  cbv zeta in *. split; [exact A|]. split; [exact B|]. split.
  - intros g. rewrite C, tally_all by lia. cbn [counted dget]. unfold counted. cbn [dget].
    destruct (Nat.leb_spec 1 (length g)), (Nat.ltb_spec (length g) (1 + m)), (Nat.leb_spec (length g) m); cbn [andb]; lia.
  - intros n N. rewrite (D (fun g => Nat.eqb (length g) n)). cbn [filter map list_sum fold_right]. rewrite lengths_all by lia.
    destruct (Nat.leb_spec 1 n), (Nat.ltb_spec n (1 + m)); cbn [andb]; unfold list_sum; cbn [map fold_right]; lia.
Qed.

Lemma merge_max_counted new : forall final, NoDup (map fst new) ->
  forall g, counted (fold_left (fun f gc => dset gram_eqb f (fst gc) (Nat.max (counted f (fst gc)) (snd gc))) new final) g = Nat.max (counted final g) (counted new g).
Proof.
  induction new as [|[x n] new IH]; intros final N g; cbn [fold_left fst snd].
  - change (counted [] g) with 0. lia.
  - cbn [map fst] in N. inversion N as [|? ? NI N']; subst. rewrite IH by exact N'. rewrite counted_dset.
    replace (counted ((x, n) :: new) g) with (if gram_eqb g x then n else counted new g) by (unfold counted; cbn [dget]; destruct (gram_eqb g x); reflexivity). destruct (gram_eqb g x) eqn:E.
    + apply gram_eqb_eq in E. subst x. assert (Z : counted new g = 0) by (unfold counted; destruct (dget gram_eqb new g) eqn:G; [|reflexivity]; exfalso; apply NI; apply (dget_In gram_eqb gram_eqb_eq) in G; apply (in_map fst) in G; exact G).
      rewrite Z. lia.
    + reflexivity.
Qed.

Lemma reference_info m refs : refs <> [] ->
  exists info, extract_reference_info m refs = Ok info /\ ri_lens info = map (@length string) refs /\
    forall g, 1 <= length g <= m -> counted (ri_ngrams info) g = most g refs.
Proof.
  destruct refs as [|r t]; [congruence|]. intros _. unfold extract_reference_info. eexists. split; [reflexivity|].
  set (step := fun info ref => _).
  assert (H : forall t done info, ri_lens info = map (@length string) done -> (forall g, 1 <= length g <= m -> counted (ri_ngrams info) g = most g done) ->
    ri_lens (fold_left step t info) = map (@length string) (done ++ t) /\ forall g, 1 <= length g <= m -> counted (ri_ngrams (fold_left step t info)) g = most g (done ++ t)).
  { clear. induction t as [|x t IH]; intros done info L C; cbn [fold_left].
    - rewrite app_nil_r. auto.
    - specialize (IH (done ++ [x]) (step info x)). rewrite <- app_assoc in IH. apply IH.
      + unfold step. cbn [ri_lens]. rewrite L, map_app. reflexivity.
      + intros g G. unfold step. cbn [ri_ngrams]. destruct (ngrams_facts m x) as (N & _ & CX & _). rewrite merge_max_counted by exact N.
        rewrite C, CX by exact G. unfold most. rewrite map_app, list_max_app. cbn [map list_max fold_right].
        destruct (Nat.leb_spec 1 (length g)), (Nat.leb_spec (length g) m); try lia. cbn [andb]. unfold list_max; cbn [fold_right]; lia. }
  apply (H t [r]).
  - reflexivity.
  - intros g G. cbn [ri_ngrams]. destruct (ngrams_facts m r) as (_ & _ & CX & _). rewrite CX. unfold most. cbn [map list_max fold_right].
    destruct (Nat.leb_spec 1 (length g)), (Nat.leb_spec (length g) m); try lia. cbn [andb]. unfold list_max; cbn [fold_right]; lia.
Qed.

Lemma apart_distance a b : distance a b = apart a b.
Proof. unfold distance, apart. lia. Qed.

Lemma closest_nearest n lens : lens <> [] -> exists r, find_closest_ref_len n lens = Ok r /\ nearest n lens r.
Proof.
  destruct lens as [|r t]; [congruence|]. intros _. unfold find_closest_ref_len. eexists. split; [reflexivity|].
  assert (H : forall t best before after, (forall x, In x before -> apart best n < apart x n) -> (forall x, In x after -> apart best n <= apart x n) ->
    nearest n (before ++ best :: after ++ t) (fold_left (fun best x => if Nat.ltb (distance x n) (distance best n) then x else best) t best)).
  { clear. induction t as [|x t IH]; intros best before after B A; cbn [fold_left].
    - exists before, after. rewrite app_nil_r. auto.
    - rewrite !apart_distance. destruct (Nat.ltb_spec (apart x n) (apart best n)) as [L|L].
      + specialize (IH x (before ++ best :: after) []). cbn [app] in IH. rewrite <- app_assoc in IH. apply IH; [|intros ? []].
        intros y Y. apply in_app_iff in Y. destruct Y as [Y|[Y|Y]]; [specialize (B y Y); lia|subst y; exact L|specialize (A y Y); lia].
      + specialize (IH best before (after ++ [x])). rewrite <- app_assoc in IH. apply IH; [exact B|].
        intros y Y. apply in_app_iff in Y. destruct Y as [Y|[Y|[]]]; [apply A; exact Y|subst y; exact L]. }
  apply (H t r [] []); intros ? [].
Qed.

Lemma add_at_length i x l : length (add_at i x l) = length l.
Proof. revert i. induction l as [|y l IH]; intros [|i]; cbn [add_at length]; auto. Qed.

Lemma add_at_nth i x l j : j < length l -> nth j (add_at i x l) 0 = nth j l 0 + if Nat.eqb i j then x else 0.
Proof.
  revert i j. induction l as [|y l IH]; intros i j J; [cbn in J; lia|].
  destruct i as [|i], j as [|j]; cbn [add_at nth Nat.eqb]; try lia. apply IH. cbn in J. lia.
Qed.

Lemma add_at_0 i l : add_at i 0 l = l.
Proof. revert i. induction l as [|y l IH]; intros [|i]; cbn [add_at]; [reflexivity|reflexivity|f_equal; lia|f_equal; apply IH]. Qed.

Lemma fold_add_at (h v : gram * nat -> nat) l : forall a b,
  let r := fold_left (fun mt gc => (add_at (length (fst gc) - 1) (h gc) (fst mt), add_at (length (fst gc) - 1) (v gc) (snd mt))) l (a, b) in
  length (fst r) = length a /\ length (snd r) = length b /\
  (forall i, i < length a -> nth i (fst r) 0 = nth i a 0 + list_sum (map h (filter (fun gc => Nat.eqb (length (fst gc) - 1) i) l))) /\
  (forall i, i < length b -> nth i (snd r) 0 = nth i b 0 + list_sum (map v (filter (fun gc => Nat.eqb (length (fst gc) - 1) i) l))).
Proof.
  induction l as [|x l IH]; intros a b; cbn [fold_left].
  - cbv zeta. cbn [filter map fst snd]. unfold list_sum. cbn [fold_right]. split; [reflexivity|]. split; [reflexivity|]. split; intros; lia.
  - cbn [fst snd]. destruct (IH (add_at (length (fst x) - 1) (h x) a) (add_at (length (fst x) - 1) (v x) b)) as (A & B & C & D).
    cbv zeta in *. rewrite !add_at_length in *. split; [exact A|]. split; [exact B|]. cbn [filter]. split; intros i I.
    + rewrite C, add_at_nth by exact I. destruct (Nat.eqb (length (fst x) - 1) i); cbn [map]; unfold list_sum; cbn [fold_right]; lia.
    + rewrite D, add_at_nth by exact I. destruct (Nat.eqb (length (fst x) - 1) i); cbn [map]; unfold list_sum; cbn [fold_right]; lia.
Qed.

(** The statistics of one hypothesis *)

Definition describes (m : nat) (a : bleu_acc) (g : segment) : Prop :=
  length (matching_ngrams a) = m /\ length (total_ngrams a) = m /\
  (forall n, 1 <= n <= m -> clipped n (sg_hyp g) (sg_refs g) (nth (n - 1) (matching_ngrams a) 0)) /\
  (forall n, 1 <= n <= m -> nth (n - 1) (total_ngrams a) 0 = length (sg_hyp g) + 1 - n) /\
  hyp_len a = length (sg_hyp g) /\ nearest (length (sg_hyp g)) (map (@length string) (sg_refs g)) (ref_len a).

Lemma segment_statistics m g : sg_refs g <> [] ->
  exists info a, extract_reference_info m (sg_refs g) = Ok info /\ compute_segment_statistics m (sg_hyp g) info = Ok a /\ describes m a g.
Proof.
  intros R. destruct (reference_info m _ R) as (info & E & L & C). exists info.
  destruct (closest_nearest (length (sg_hyp g)) (ri_lens info)) as (r & ER & NR); [rewrite L; destruct (sg_refs g); cbn; congruence|].
  unfold compute_segment_statistics. destruct (extract_all_word_ngrams m (sg_hyp g)) as [hn hl] eqn:EH.
  assert (HL : hl = length (sg_hyp g)) by (unfold extract_all_word_ngrams in EH; congruence). subst hl. rewrite ER. cbn [bind].
  destruct (ngrams_facts m (sg_hyp g)) as (N & P & CT & SU). rewrite EH in N, P, CT, SU. cbn [fst] in N, P, CT, SU.
  assert (EQ : forall l mt, fold_left (fun mt gc => (match dget gram_eqb (ri_ngrams info) (fst gc) with
                    | Some c => add_at (length (fst gc) - 1) (Nat.min (snd gc) c) (fst mt) | None => fst mt end, add_at (length (fst gc) - 1) (snd gc) (snd mt))) l mt =
     fold_left (fun mt gc => (add_at (length (fst gc) - 1) (Nat.min (snd gc) (counted (ri_ngrams info) (fst gc))) (fst mt), add_at (length (fst gc) - 1) (snd gc) (snd mt))) l mt).
  { clear. induction l as [|x l IH]; intros mt; cbn [fold_left]; [reflexivity|]. rewrite IH. f_equal. f_equal. unfold counted.
    destruct (dget gram_eqb (ri_ngrams info) (fst x)); [reflexivity|]. rewrite Nat.min_0_r, add_at_0. reflexivity. }
  cbv zeta. rewrite EQ.
  destruct (fold_add_at (fun gc => Nat.min (snd gc) (counted (ri_ngrams info) (fst gc))) snd hn (zeros m) (zeros m)) as (A & B & CM & CTT). cbv zeta in A, B, CM, CTT.
  destruct (fold_left _ hn (zeros m, zeros m)) as [mm tt] eqn:EF. cbn [fst snd] in A, B, CM, CTT. unfold zeros in A, B, CM, CTT. rewrite repeat_length in A, B, CM, CTT.
  exists (BleuAcc mm tt (length (sg_hyp g)) r). split; [exact E|]. split; [reflexivity|].
  assert (PL : forall gc, In gc hn -> 1 <= length (fst gc) <= m).
  { intros [x k] I. pose proof (P _ _ I) as K. apply (dget_In_NoDup gram_eqb gram_eqb_eq) in I; [|exact N]. specialize (CT x). unfold counted in CT. rewrite I in CT. cbn [fst].
    destruct (Nat.leb_spec 1 (length x)), (Nat.leb_spec (length x) m); cbn [andb] in CT; lia. }
  assert (FE : forall n, 1 <= n -> filter (fun gc => Nat.eqb (length (fst gc) - 1) (n - 1)) hn = filter (fun gc => Nat.eqb (length (fst gc)) n) hn).
  { intros n Hn. apply filter_ext_in. intros gc I. specialize (PL gc I). destruct (Nat.eqb_spec (length (fst gc) - 1) (n - 1)), (Nat.eqb_spec (length (fst gc)) n); auto; lia. }
  assert (Z : forall i, nth i (repeat 0 m) 0 = 0).
  { intros i. destruct (Nat.lt_ge_cases i m) as [J|J]; [|apply nth_overflow; rewrite repeat_length; exact J]. apply (repeat_spec m). apply nth_In. rewrite repeat_length. exact J. }
  unfold describes. cbn [matching_ngrams total_ngrams hyp_len ref_len]. split; [exact A|]. split; [exact B|]. split; [|split; [|split; [reflexivity|rewrite <- L; exact NR]]].
  - intros n Hn. rewrite CM by lia. rewrite Z, FE by lia. cbn [Nat.add].
    exists (map fst (filter (fun gc => Nat.eqb (length (fst gc)) n) hn)).
    assert (IH : forall x k, In (x, k) hn -> k = occurs x (sg_hyp g)).
    { intros x k I. pose proof (PL _ I) as K. apply (dget_In_NoDup gram_eqb gram_eqb_eq) in I; [|exact N]. specialize (CT x). unfold counted in CT. rewrite I in CT. cbn [fst] in K.
      destruct (Nat.leb_spec 1 (length x)), (Nat.leb_spec (length x) m); cbn [andb] in CT; lia. }
    split; [|split].
    + clear -N. induction hn as [|x l IH]; cbn [filter]; [constructor|]. cbn [map] in N. inversion N as [|? ? NI N']; subst. destruct (Nat.eqb (length (fst x)) n); [|auto].
      cbn [map]. constructor; [|auto]. intros I. apply NI. apply in_map_iff in I. destruct I as (y & <- & I). apply filter_In in I. apply in_map. tauto.
    + intros x. rewrite in_map_iff. split.
      * intros ([y k] & <- & I). apply filter_In in I. destruct I as [I K]. apply Nat.eqb_eq in K. cbn [fst] in *. split; [exact K|]. rewrite <- (IH _ _ I). eapply P; eauto.
      * intros [K O]. specialize (CT x). destruct (Nat.leb_spec 1 (length x)), (Nat.leb_spec (length x) m); try lia. cbn [andb] in CT. unfold counted in CT.
        destruct (dget gram_eqb hn x) as [k|] eqn:D; [|lia]. apply (dget_In gram_eqb gram_eqb_eq) in D. exists (x, k). split; [reflexivity|]. apply filter_In. split; [exact D|]. apply Nat.eqb_eq. exact K.
    + rewrite map_map. f_equal. apply map_ext_in. intros [x k] I. apply filter_In in I. destruct I as [I K]. cbn [fst snd]. rewrite (IH _ _ I) at 1. rewrite C by (apply (PL _ I)). reflexivity.
  - intros n Hn. rewrite CTT by lia. rewrite Z, FE by lia. apply SU. exact Hn.
Qed.

(** What an example contributes: hypotheses with references, or the number of words of
    hypotheses when all references are blank. *)

Definition blank (rows : list (list (option string))) : Prop := forall row r, In row rows -> In r row -> r = Some "".

Definition references_of (pw : string -> list string) (rows : list (list (option string))) (j : nat) : list (list string) :=
  flat_map (fun row => match nth j row None with Some r => [pw r] | None => [] end) rows.

Definition contributes (pw words : string -> list string) (e : text_example) (x : list segment * nat) : Prop :=
  exists rows hyps, te_references e = Some rows /\ te_hypotheses e = Some hyps /\
    ((blank rows /\ x = ([], list_sum (map (fun h => length (words h)) hyps))) \/
     (~ blank rows /\ (forall row, In row rows -> length row = length hyps) /\
      x = (map (fun j => Segment (pw (nth j hyps "")) (references_of pw rows j)) (seq 0 (length hyps)), 0) /\
      forall g, In g (fst x) -> sg_refs g <> [])).

(** The statistics of a collection of examples *)

Definition corpus (m : nat) (a : bleu_acc) (xs : list (list segment * nat)) : Prop :=
  let segments := flat_map fst xs in
  length (matching_ngrams a) = m /\ length (total_ngrams a) = m /\
  (forall n, 1 <= n <= m -> exists ks, Forall2 (fun g k => clipped n (sg_hyp g) (sg_refs g) k) segments ks /\ nth (n - 1) (matching_ngrams a) 0 = list_sum ks) /\
  (forall n, 1 <= n <= m -> nth (n - 1) (total_ngrams a) 0 = list_sum (map (fun g => length (sg_hyp g) + 1 - n) segments)) /\
  hyp_len a = list_sum (map (fun g => length (sg_hyp g)) segments) + list_sum (map snd xs) /\
  (exists rs, Forall2 (fun g r => nearest (length (sg_hyp g)) (map (@length string) (sg_refs g)) r) segments rs /\ ref_len a = list_sum rs).

Lemma vplus_nth a b i : length a = length b -> nth i (vplus a b) 0 = nth i a 0 + nth i b 0.
Proof.
  intros L. unfold vplus. revert b i L. induction a as [|x a IH]; intros [|y b] i L; try discriminate; [destruct i; reflexivity|].
  destruct i as [|i]; [reflexivity|]. cbn [combine map nth]. apply IH. injection L as L. exact L.
Qed.

Lemma vplus_length a b m : length a = m -> length b = m -> length (vplus a b) = m.
Proof. intros A B. unfold vplus. rewrite map_length, combine_length. lia. Qed.

Lemma corpus_plus m a b xs ys : corpus m a xs -> corpus m b ys -> corpus m (bleu_plus a b) (xs ++ ys).
Proof.
  intros (A1 & A2 & A3 & A4 & A5 & rs & A6 & A7) (B1 & B2 & B3 & B4 & B5 & rs' & B6 & B7). unfold corpus. rewrite flat_map_app.
  cbn [bleu_plus matching_ngrams total_ngrams hyp_len ref_len].
  split; [apply vplus_length; assumption|]. split; [apply vplus_length; assumption|]. split; [|split; [|split]].
  - intros n N. destruct (A3 n N) as (ks & F & E), (B3 n N) as (ks' & F' & E'). exists (ks ++ ks'). split; [apply Forall2_app; assumption|].
    rewrite vplus_nth by congruence. rewrite E, E', list_sum_app. reflexivity.
  - intros n N. rewrite vplus_nth by congruence. rewrite A4, B4 by exact N. rewrite map_app, list_sum_app. reflexivity.
  - rewrite A5, B5, !map_app, !list_sum_app. lia.
  - exists (rs ++ rs'). split; [apply Forall2_app; assumption|]. rewrite A7, B7, list_sum_app. reflexivity.
Qed.

Lemma zeros_nth m i : nth i (zeros m) 0 = 0.
Proof.
  unfold zeros. destruct (Nat.lt_ge_cases i m) as [J|J]; [|apply nth_overflow; rewrite repeat_length; exact J].
  apply (repeat_spec m). apply nth_In. rewrite repeat_length. exact J.
Qed.

Lemma corpus_none m n : corpus m (BleuAcc (zeros m) (zeros m) n 0) [([], n)].
Proof.
  unfold corpus. cbn. unfold zeros. rewrite repeat_length. split; [reflexivity|]. split; [reflexivity|].
  split; [|split; [|split; [lia|]]].
  - intros k K. exists []. split; [constructor|]. apply zeros_nth.
  - intros k K. apply zeros_nth.
  - exists []. split; [constructor|reflexivity].
Qed.

Lemma corpus_one m a g : describes m a g -> corpus m a [([g], 0)].
Proof.
  intros (A1 & A2 & A3 & A4 & A5 & A6). unfold corpus. cbn [flat_map fst app map snd list_sum fold_right]. unfold list_sum. cbn [fold_right].
  split; [exact A1|]. split; [exact A2|]. split; [|split; [|split; [lia|]]].
  - intros n N. exists [nth (n - 1) (matching_ngrams a) 0]. split; [constructor; [apply A3; exact N|constructor]|]. cbn [fold_right]. lia.
  - intros n N. rewrite A4 by exact N. lia.
  - exists [ref_len a]. split; [constructor; [exact A6|constructor]|]. cbn [fold_right]. lia.
Qed.

Lemma corpus_same m a xs ys : flat_map fst xs = flat_map fst ys -> list_sum (map snd xs) = list_sum (map snd ys) -> corpus m a xs -> corpus m a ys.
Proof. intros E1 E2 C. unfold corpus in *. rewrite <- E1, <- E2. exact C. Qed.

(** order does not matter *)

Lemma corpus_swap m a xs ys : corpus m a (xs ++ ys) -> corpus m a (ys ++ xs).
Proof.
  intros (A1 & A2 & A3 & A4 & A5 & rs & A6 & A7). unfold corpus. rewrite flat_map_app in *.
  split; [exact A1|]. split; [exact A2|]. split; [|split; [|split]].
  - intros n N. destruct (A3 n N) as (ks & F & E). apply Forall2_app_inv_l in F. destruct F as (k1 & k2 & F1 & F2 & ->). exists (k2 ++ k1).
    split; [apply Forall2_app; assumption|]. rewrite E, !list_sum_app. lia.
  - intros n N. rewrite A4 by exact N. rewrite !map_app, !list_sum_app. lia.
  - rewrite A5, !map_app, !list_sum_app. lia.
  - apply Forall2_app_inv_l in A6. destruct A6 as (k1 & k2 & F1 & F2 & ->). exists (k2 ++ k1). split; [apply Forall2_app; assumption|]. rewrite A7, !list_sum_app. lia.
Qed.

Lemma blank_dec rows : forallb (forallb (fun r => match r with Some s => String.eqb s "" | None => false end)) rows = true <-> blank rows.
Proof.
  unfold blank. rewrite forallb_forall. split.
  - intros H row r I J. specialize (H row I). rewrite forallb_forall in H. specialize (H r J). destruct r as [s|]; [|discriminate]. apply String.eqb_eq in H. congruence.
  - intros H row I. apply forallb_forall. intros r J. rewrite (H row r I J). reflexivity.
Qed.

Lemma columns_table {A} (rows : list (list (option A))) n : rows <> [] -> (forall row, In row rows -> length row = n) ->
  columns rows = map (fun j => map (fun row => nth j row None) rows) (seq 0 n).
Proof.
  destruct rows as [|r t]; [congruence|]. intros _ H. unfold columns. f_equal. f_equal.
  rewrite (H r (or_introl eq_refl)). assert (G : forall row, In row t -> length row = n) by (intros; apply H; right; assumption). clear H.
  assert (G' : forall m, m = n -> fold_left (fun n row => Nat.min n (length row)) t m = n).
  { induction t as [|x t IH]; intros m M; cbn [fold_left]; [exact M|]. apply IH; [intros; apply G; right; assumption|]. rewrite (G x (or_introl eq_refl)). lia. }
  apply G'. reflexivity.
Qed.

Lemma mapM_exists {A B} (f : A -> res B) (P : A -> B -> Prop) l :
  (forall x, In x l -> exists y, f x = Ok y /\ P x y) -> exists ys, mapM f l = Ok ys /\ Forall2 P l ys.
Proof.
  induction l as [|x l IH]; intros H; [exists []; split; [reflexivity|constructor]|].
  destruct (H x (or_introl eq_refl)) as (y & E & Y). destruct IH as (ys & ES & YS); [intros; apply H; right; assumption|].
  exists (y :: ys). split; [cbn [mapM]; rewrite E; cbn [bind]; rewrite ES; reflexivity|constructor; assumption].
Qed.

Lemma merge_next_ok {A} (plus : A -> A -> A) l a : merge_next plus (map (fun x => Ok x) (a :: l)) = Ok (fold_left plus l a).
Proof.
  cbn [map merge_next]. revert a. induction l as [|x l IH]; intros a; cbn [map fold_left]; [reflexivity|]. cbn [bind]. apply IH.
Qed.

Lemma mapM_map' {A B C} (f : B -> res C) (g : A -> B) l : mapM f (map g l) = mapM (fun x => f (g x)) l.
Proof. induction l as [|x l IH]; cbn [map mapM]; [reflexivity|]. rewrite IH. reflexivity. Qed.

Lemma mapM_combine {A B C D} (F : B * C -> res D) (h : A -> B) (P : A -> C -> Prop) (Q : A -> D -> Prop) js infos :
  Forall2 P js infos -> (forall j i, In j js -> P j i -> exists a, F (h j, i) = Ok a /\ Q j a) ->
  exists l, mapM F (combine (map h js) infos) = Ok l /\ Forall2 Q js l.
Proof.
  induction 1 as [|j i js infos PJ FJ IH]; intros H; [exists []; split; [reflexivity|constructor]|].
  destruct (H j i (or_introl eq_refl) PJ) as (a & E & QA). destruct IH as (l & EL & QL); [intros; apply H; [right|]; assumption|].
  exists (a :: l). split; [cbn [map combine mapM]; rewrite E; cbn [bind]; rewrite EL; reflexivity|constructor; assumption].
Qed.

Lemma map_nth_seq {A} (l : list A) d : map (fun j => nth j l d) (seq 0 (length l)) = l.
Proof.
  induction l as [|x l IH]; [reflexivity|]. cbn [length seq map nth]. f_equal. rewrite <- seq_shift, map_map. exact IH.
Qed.

Lemma fold_corpus m l : forall xss b ys, corpus m b ys -> Forall2 (corpus m) l xss -> corpus m (fold_left bleu_plus l b) (ys ++ concat xss).
Proof.
  induction l as [|a l IH]; intros xss b ys B F; inversion F as [|? xs ? xss' A F']; subst; cbn [fold_left concat].
  - rewrite app_nil_r. exact B.
  - rewrite app_assoc. apply IH; [apply corpus_plus; assumption|exact F'].
Qed.

Lemma stats_added m stats xss a xs : Forall2 (corpus m) stats xss -> corpus m a xs ->
  exists a', merge_next bleu_plus (map (fun x => Ok x) (stats ++ [a])) = Ok a' /\ corpus m a' (concat xss ++ xs).
Proof.
  intros F A. destruct F as [|b ys stats xss B F].
  - exists a. split; [reflexivity|exact A].
  - change ((b :: stats) ++ [a]) with (b :: (stats ++ [a])). rewrite merge_next_ok. eexists. split; [reflexivity|].
    replace (concat (ys :: xss) ++ xs) with (ys ++ concat (xss ++ [xs])).
    + apply fold_corpus; [exact B|]. apply Forall2_app; [exact F|constructor; [exact A|constructor]].
    + rewrite concat_app. cbn [concat]. rewrite app_nil_r, app_assoc. reflexivity.
Qed.

Lemma one_each {A} (f : A -> segment) js : flat_map fst (concat (map (fun j => [([f j], 0)]) js)) = map f js.
Proof. induction js as [|j js IH]; [reflexivity|]. cbn [map concat app flat_map fst]. f_equal. exact IH. Qed.

Lemma one_each_0 {A} (f : A -> segment) js : list_sum (map snd (concat (map (fun j => [([f j], 0)]) js))) = 0.
Proof. induction js as [|j js IH]; [reflexivity|]. cbn [map concat app snd]. exact IH. Qed.

Lemma example_statistics m pw words rows hyps x :
  contributes pw words (TextExample (Some rows) (Some hyps)) x ->
  exists stats xss, extract_corpus_statistics m pw words hyps rows = Ok stats /\ Forall2 (corpus m) stats xss /\
    flat_map fst (concat xss) = fst x /\ list_sum (map snd (concat xss)) = snd x.
Proof.
  intros (rows' & hyps' & R & H & C). cbn [te_references te_hypotheses] in R, H. injection R as <-. injection H as <-.
  unfold extract_corpus_statistics. destruct C as [[B ->]|(B & L & -> & G)].
  - apply blank_dec in B. rewrite B. unfold extract_statistics_for_empty_reference. eexists. exists [[([], list_sum (map (fun h => length (words h)) hyps))]].
    split; [reflexivity|]. split; [|cbn; split; [reflexivity|unfold list_sum; cbn [fold_right]; lia]]. constructor; [|constructor].
    replace (fold_left _ hyps 0) with (list_sum (map (fun h => length (words h)) hyps)); [apply corpus_none|].
    assert (FS : forall l n, fold_left (fun s h => s + snd (extract_all_word_ngrams m (words h))) l n = n + list_sum (map (fun h => length (words h)) l)).
    { induction l as [|h l IH]; intros n; cbn [fold_left map]; [unfold list_sum; cbn [fold_right]; lia|]. rewrite IH. cbn [extract_all_word_ngrams snd]. unfold list_sum. cbn [fold_right]. lia. }
    rewrite FS. reflexivity.
  - destruct (forallb _ rows) eqn:E; [exfalso; apply B, blank_dec; exact E|]. clear E.
    assert (RN : rows <> []) by (intros ->; apply B; intros ? ? []).
    unfold extract_reference_ngrams_and_lens. rewrite (columns_table rows (length hyps) RN L), mapM_map'.
    cbn [fst] in G.
    assert (RJ : forall j, In j (seq 0 (length hyps)) -> references_of pw rows j <> []).
    { intros j J. apply (G (Segment (pw (nth j hyps "")) (references_of pw rows j))). apply in_map_iff. exists j. auto. }
    destruct (mapM_exists (fun j => extract_reference_info m (flat_map (fun line => match line with Some l => [pw l] | None => [] end) (map (fun row => nth j row None) rows)))
                (fun j info => extract_reference_info m (references_of pw rows j) = Ok info) (seq 0 (length hyps))) as (infos & EI & FI).
    { intros j J. destruct (reference_info m _ (RJ j J)) as (info & E & _). exists info. split; [|exact E]. rewrite <- E. f_equal.
      unfold references_of. clear. induction rows as [|row rows IH]; [reflexivity|]. cbn [map flat_map]. rewrite IH. reflexivity. }
    rewrite EI. cbn [bind]. replace (combine hyps infos) with (combine (map (fun j => nth j hyps "") (seq 0 (length hyps))) infos) by (rewrite map_nth_seq; reflexivity).
    destruct (mapM_combine (fun hi => compute_segment_statistics m (pw (fst hi)) (snd hi)) (fun j => nth j hyps "") _
                (fun j a => describes m a (Segment (pw (nth j hyps "")) (references_of pw rows j))) _ _ FI) as (stats & ES & FS).
    { intros j info J I. destruct (segment_statistics m (Segment (pw (nth j hyps "")) (references_of pw rows j)) (RJ j J)) as (info' & a & E & A & D).
      cbn [sg_refs sg_hyp] in E, A. rewrite I in E. injection E as <-. exists a. split; [exact A|exact D]. }
    exists stats, (map (fun j => [([Segment (pw (nth j hyps "")) (references_of pw rows j)], 0)]) (seq 0 (length hyps))).
    split; [exact ES|]. split; [|split].
    + clear -FS. induction FS as [|j a js l D F IH]; cbn [map]; constructor; [apply corpus_one; exact D|exact IH].
    + apply one_each.
    + apply (one_each_0 (fun j => Segment (pw (nth j hyps "")) (references_of pw rows j))).
Qed.

Lemma example_added m pw words a xs e x : contributes pw words e x -> corpus m a xs ->
  exists a', bleu_add m pw words a e = Ok a' /\ corpus m a' (xs ++ [x]).
Proof.
  intros C A. destruct C as (rows & hyps & R & H & C). unfold bleu_add. rewrite R, H.
  destruct (example_statistics m pw words rows hyps x) as (stats & xss & E & F & X1 & X2); [exists rows, hyps; auto|].
  rewrite E. cbn [bind]. destruct (stats_added m stats xss a xs F A) as (a' & E' & A'). exists a'. split; [exact E'|].
  apply corpus_swap. apply (corpus_same m a' (concat xss ++ xs)); [| |exact A'].
  - rewrite !flat_map_app, X1. cbn [flat_map]. rewrite app_nil_r. reflexivity.
  - rewrite !map_app, !list_sum_app, X2. cbn [map]. unfold list_sum. cbn [fold_right]. lia.
Qed.

Lemma contributes_fun pw words e x y : contributes pw words e x -> contributes pw words e y -> x = y.
Proof.
  intros (rows & hyps & R & H & C) (rows' & hyps' & R' & H' & C'). rewrite R in R'. rewrite H in H'. injection R' as <-. injection H' as <-.
  destruct C as [[B ->]|(B & _ & -> & _)], C' as [[B' ->]|(B' & _ & -> & _)]; tauto || reflexivity.
Qed.

Lemma contributes_all pw words es xs ys : Forall2 (contributes pw words) es xs -> Forall2 (contributes pw words) es ys -> xs = ys.
Proof.
  intros F. revert ys. induction F as [|e x es xs C F IH]; intros ys G; inversion G as [|? y ? ys' C' G']; subst; [reflexivity|].
  f_equal; [exact (contributes_fun _ _ _ _ _ C C')|apply IH; exact G'].
Qed.

Lemma C188_statistics_pf : forall V (compute_bleu : bleu_acc -> V) m pw words s xs,
  Forall2 (contributes pw words) (inputs s) xs ->
  exists a, outcome (bleu_combiner m pw words compute_bleu) s = Ok (compute_bleu a) /\ corpus m a xs.
Proof.
  intros V compute_bleu m pw words s xs F.
  destruct (res_rel_run (bleu_create m) (bleu_add m pw words) bleu_plus (fun a => Ok (compute_bleu a)) (fun e => exists x, contributes pw words e x)
              (fun a l => exists xs, Forall2 (contributes pw words) l xs /\ corpus m a xs)) with (s := s) as (a & E & ys & G & C).
  - exists []. split; [constructor|]. apply (corpus_same m _ [([], 0)]); [reflexivity|reflexivity|]. apply corpus_none.
  - intros a l e (ys & G & C) (x & X). destruct (example_added m pw words a ys e x X C) as (a' & E & C'). exists a'. split; [exact E|]. exists (ys ++ [x]).
    split; [apply Forall2_app; [exact G|constructor; [exact X|constructor]]|exact C'].
  - intros a b l1 l2 (y1 & G1 & C1) (y2 & G2 & C2). exists (y1 ++ y2). split; [apply Forall2_app; assumption|apply corpus_plus; assumption].
  - clear -F. induction F as [|e x es xs C F IH]; constructor; [exists x; exact C|exact IH].
  - exists a. unfold outcome, bleu_combiner. rewrite E. split; [reflexivity|]. rewrite (contributes_all _ _ _ _ _ F G). exact C.
Qed.

(** Splitting at spaces, and separating full stops first. *)

Fixpoint ex_words_from (word : string) (s : string) : list string :=
  match s with
  | EmptyString => if String.eqb word "" then [] else [word]
  | String c t => if Ascii.eqb c " " then (if String.eqb word "" then [] else [word]) ++ ex_words_from "" t
                  else ex_words_from (word ++ String c "") t
  end.

Definition ex_words := ex_words_from "".

Fixpoint ex_separate (s : string) : string :=
  match s with
  | EmptyString => ""
  | String c t => if Ascii.eqb c "." then String " " (String "." (ex_separate t)) else String c (ex_separate t)
  end.

Definition ex_tokens (s : string) : list string := ex_words (ex_separate s).

Lemma list_sum_cons x l : list_sum (x :: l) = x + list_sum l.
Proof. reflexivity. Qed.

Lemma list_sum_perm l l' : Permutation l l' -> list_sum l = list_sum l'.
Proof. unfold list_sum. induction 1; cbn [fold_right]; lia. Qed.

Lemma list_max_perm l l' : Permutation l l' -> list_max l = list_max l'.
Proof. unfold list_max. induction 1; cbn [fold_right]; lia. Qed.

Lemma clipped_fun n h refs refs' k k' : Permutation refs refs' -> clipped n h refs k -> clipped n h refs' k' -> k = k'.
Proof.
  intros P (gs & N & I & ->) (gs' & N' & I' & ->).
  assert (G : Permutation gs gs') by (apply NoDup_Permutation; [exact N|exact N'|]; intros g; rewrite I, I'; reflexivity).
  rewrite (list_sum_perm _ _ (Permutation_map _ G)). f_equal. apply map_ext. intros g. unfold most. rewrite (list_max_perm _ _ (Permutation_map (occurs g) P)). reflexivity.
Qed.

Lemma nearest_best n lens r x : nearest n lens r -> In x lens -> apart r n <= apart x n.
Proof.
  intros (b & a & -> & B & A) I. apply in_app_iff in I. destruct I as [I|[<-|I]]; [specialize (B x I); lia|lia|apply A; exact I].
Qed.

Lemma nearest_in n lens r : nearest n lens r -> In r lens.
Proof. intros (b & a & -> & _). apply in_app_iff. right. left. reflexivity. Qed.

Lemma nearest_fun n lens r r' : nearest n lens r -> nearest n lens r' -> r = r'.
Proof.
  intros (b & a & E & B & A) (b' & a' & E' & B' & A'). rewrite E in E'. clear E lens. revert b' E' B'. induction b as [|x b IH]; intros [|y b'] E' B'; cbn [app] in E'.
  - congruence.
  - injection E' as <- ->. exfalso. specialize (B' r (or_introl eq_refl)). specialize (A r'). rewrite in_app_iff in A. specialize (A (or_intror (or_introl eq_refl))). lia.
  - injection E' as -> <-. exfalso. specialize (B r' (or_introl eq_refl)). specialize (A' r). rewrite in_app_iff in A'. specialize (A' (or_intror (or_introl eq_refl))). lia.
  - injection E' as _ E'. apply (IH (fun z I => B z (or_intror I)) b' E'). intros z I. apply B'. right. exact I.
Qed.

(** Equal up to the order of references that are not equally near. *)

Definition same_segment (g g' : segment) : Prop :=
  sg_hyp g = sg_hyp g' /\ Permutation (sg_refs g) (sg_refs g') /\
  (sg_refs g = sg_refs g' \/
   forall x y, In x (sg_refs g) -> In y (sg_refs g) -> apart (length x) (length (sg_hyp g)) = apart (length y) (length (sg_hyp g)) -> length x = length y).

Lemma same_nearest g g' r r' : same_segment g g' ->
  nearest (length (sg_hyp g)) (map (@length string) (sg_refs g)) r -> nearest (length (sg_hyp g')) (map (@length string) (sg_refs g')) r' -> r = r'.
Proof.
  intros (E & P & [R|T]) N N'; [rewrite <- E, <- R in N'; exact (nearest_fun _ _ _ _ N N')|]. rewrite <- E in N'.
  pose proof (nearest_in _ _ _ N) as I. pose proof (nearest_in _ _ _ N') as I'.
  pose proof (nearest_best _ _ _ r' N) as B. pose proof (nearest_best _ _ _ r N') as B'.
  apply (Permutation_in (l' := map (@length string) (sg_refs g))) in I'; [|apply Permutation_map; symmetry; exact P].
  specialize (B I'). specialize (B' (Permutation_in _ (Permutation_map _ P) I)).
  apply in_map_iff in I, I'. destruct I as (x & <- & I), I' as (y & <- & I'). apply T; auto. lia.
Qed.

Lemma corpus_fun m a b xs ys : corpus m a xs -> corpus m b ys ->
  Forall2 same_segment (flat_map fst xs) (flat_map fst ys) -> list_sum (map snd xs) = list_sum (map snd ys) -> a = b.
Proof.
  intros (A1 & A2 & A3 & A4 & A5 & rs & A6 & A7) (B1 & B2 & B3 & B4 & B5 & rs' & B6 & B7) F X.
  destruct a as [am at' ah ar], b as [bm bt bh br]. cbn [matching_ngrams total_ngrams hyp_len ref_len] in *.
  assert (L : forall h, list_sum (map (fun g => h (length (sg_hyp g))) (flat_map fst xs)) = list_sum (map (fun g => h (length (sg_hyp g))) (flat_map fst ys))).
  { intros h. f_equal. clear -F. induction F as [|g g' l l' S F IH]; [reflexivity|]. cbn [map]. destruct S as (-> & _). f_equal. exact IH. }
  f_equal.
  - apply (nth_ext _ _ 0 0); [congruence|]. intros i I. rewrite A1 in I. destruct (A3 (i + 1)) as (ks & FK & EK); [lia|]. destruct (B3 (i + 1)) as (ks' & FK' & EK'); [lia|].
    replace (i + 1 - 1) with i in EK, EK' by lia. rewrite EK, EK'. f_equal. clear -F FK FK'. revert ks ks' FK FK'.
    induction F as [|g g' l l' SG F IH]; intros ks ks' FK FK'; inversion FK; inversion FK'; subst; [reflexivity|]. f_equal; [|apply IH; assumption].
    destruct SG as (EH & P & _). rewrite EH in *. eapply clipped_fun; eauto.
  - apply (nth_ext _ _ 0 0); [congruence|]. intros i I. rewrite A2 in I. specialize (A4 (i + 1)). specialize (B4 (i + 1)). replace (i + 1 - 1) with i in A4, B4 by lia.
    rewrite A4, B4 by lia. apply (L (fun n => n + 1 - (i + 1))).
  - rewrite A5, B5, X. rewrite (L (fun n => n)). reflexivity.
  - rewrite A7, B7. f_equal. clear -F A6 B6. revert rs rs' A6 B6. induction F as [|g g' l l' SG F IH]; intros rs rs' A6 B6; inversion A6; inversion B6; subst; [reflexivity|].
    f_equal; [eapply same_nearest; eauto|apply IH; assumption].
Qed.

Lemma same_segment_refl g : same_segment g g.
Proof. split; [reflexivity|]. split; [reflexivity|]. left. reflexivity. Qed.

Lemma Forall2_refl {A} (R : A -> A -> Prop) l : (forall x, R x x) -> Forall2 R l l.
Proof. intros H. induction l; constructor; auto. Qed.

Lemma Forall2_perm {A B} (R : A -> B -> Prop) l l' : Permutation l l' -> forall m, Forall2 R l m -> exists m', Permutation m m' /\ Forall2 R l' m'.
Proof.
  induction 1 as [|x l l' P IH|x y l|l l' l'' P1 IH1 P2 IH2]; intros m F.
  - inversion F; subst. exists []. auto.
  - inversion F as [|? b ? m0 RX F']; subst. destruct (IH m0 F') as (m' & PM & FM). exists (b :: m'). auto.
  - inversion F as [|? b ? m0 RX F']; subst. inversion F' as [|? c ? m1 RY F'']; subst. exists (c :: b :: m1). split; [apply perm_swap|]. auto.
  - destruct (IH1 m F) as (m' & PM & FM). destruct (IH2 m' FM) as (m'' & PM' & FM'). exists m''. split; [rewrite PM; exact PM'|exact FM'].
Qed.

Lemma corpus_perm m a xs ys : Permutation xs ys -> corpus m a xs -> corpus m a ys.
Proof.
  intros P (A1 & A2 & A3 & A4 & A5 & rs & A6 & A7). unfold corpus. pose proof (Permutation_flat_map fst P) as PF.
  split; [exact A1|]. split; [exact A2|]. split; [|split; [|split]].
  - intros n N. destruct (A3 n N) as (ks & F & E). destruct (Forall2_perm _ _ _ PF _ F) as (ks' & PK & F'). exists ks'. split; [exact F'|]. rewrite E. apply list_sum_perm. exact PK.
  - intros n N. rewrite A4 by exact N. apply list_sum_perm, Permutation_map, PF.
  - rewrite A5. f_equal; apply list_sum_perm, Permutation_map; assumption.
  - destruct (Forall2_perm _ _ _ PF _ A6) as (ks' & PK & F'). exists ks'. split; [exact F'|]. rewrite A7. apply list_sum_perm. exact PK.
Qed.

Lemma C188_any_bundles_pf : forall V (compute_bleu : bleu_acc -> V) m pw words s1 s2,
  (forall e, In e (inputs s1) -> exists x, contributes pw words e x) -> Permutation (inputs s1) (inputs s2) ->
  outcome (bleu_combiner m pw words compute_bleu) s1 = outcome (bleu_combiner m pw words compute_bleu) s2.
Proof.
  intros V compute_bleu m pw words s1 s2 H P.
  assert (X : exists xs, Forall2 (contributes pw words) (inputs s1) xs).
  { clear P. induction (inputs s1) as [|e l IH]; [exists []; constructor|]. destruct (H e (or_introl eq_refl)) as (x & C). destruct IH as (xs & F); [intros; apply H; right; assumption|]. exists (x :: xs). auto. }
  destruct X as (xs & F). destruct (Forall2_perm _ _ _ P _ F) as (ys & PY & G).
  destruct (C188_statistics_pf V compute_bleu m pw words s1 xs F) as (a & -> & A). destruct (C188_statistics_pf V compute_bleu m pw words s2 ys G) as (b & -> & B).
  f_equal. f_equal. apply (corpus_fun m a b ys ys); [apply (corpus_perm m a xs ys PY A)|exact B|apply Forall2_refl, same_segment_refl|reflexivity].
Qed.

Lemma C188_refused_pf : forall V (compute_bleu : bleu_acc -> V) m pw words s e,
  In e (inputs s) ->
  (te_references e = None \/ te_hypotheses e = None \/
   exists rows hyps row j, te_references e = Some rows /\ te_hypotheses e = Some hyps /\ In row rows /\
     (forall row', In row' rows -> length row' = length row) /\ j < length row /\ (forall row', In row' rows -> nth j row' None = None)) ->
  is_ok (outcome (bleu_combiner m pw words compute_bleu) s) = false.
Proof.
  intros V compute_bleu m pw words s e I H.
  assert (R : forall a, is_ok (bleu_add m pw words a e) = false).
  { intros a. unfold bleu_add. destruct H as [->|[->|(rows & hyps & row & j & -> & -> & IR & L & J & N)]]; [reflexivity|destruct (te_references e); reflexivity|].
    unfold extract_corpus_statistics. destruct (forallb _ rows) eqn:E.
    - exfalso. apply blank_dec in E. specialize (E row (nth j row None) IR (nth_In _ _ J)). rewrite (N row IR) in E. discriminate.
    - unfold extract_reference_ngrams_and_lens. rewrite (columns_table rows (length row)); [|intros ->; destruct IR|exact L].
      destruct (mapM_err (fun refs => extract_reference_info m (flat_map (fun line => match line with Some l => [pw l] | None => [] end) refs))
                  (map (fun j => map (fun row => nth j row None) rows) (seq 0 (length row))) (map (fun row => nth j row None) rows) StopIteration) as (e' & ->); [| |reflexivity].
      + apply (in_map (fun j => map (fun row => nth j row None) rows)). apply in_seq. lia.
      + replace (flat_map _ _) with (@nil (list string)); [reflexivity|]. clear -N. induction rows as [|r rows IH]; [reflexivity|]. cbn [map flat_map]. rewrite (N r (or_introl eq_refl)). cbn [app]. apply IH. intros; apply N; right; assumption. }
  assert (G : forall x, run (bleu_combiner m pw words compute_bleu) s = Ok x -> ~ In e (inputs s)).
  { apply (rel_run (bleu_combiner m pw words compute_bleu) (fun a l => forall x, a = Ok x -> ~ In e l)).
    - intros x _ [].
    - intros a l x RL y E. cbn [bleu_combiner res_combiner c_add] in E. destruct a as [a|]; [|discriminate]. cbn [bind] in E. rewrite in_app_iff. intros [K|[K|[]]].
      + exact (RL a eq_refl K).
      + subst x. specialize (R a). rewrite E in R. discriminate.
    - intros a l ps RL RS. cbn [bleu_combiner res_combiner c_merge merge_next]. revert a l RL. induction RS as [|[b k] ps B RS IH]; intros a l RL y E; cbn [map concat fold_left fst snd] in *.
      + rewrite app_nil_r. exact (RL y E).
      + rewrite app_assoc. apply (IH (let! x := a in let! y := b in Ok (bleu_plus x y)) (l ++ k)) with (x := y); [|exact E].
        intros z Z. destruct a as [a|]; [|discriminate]. destruct b as [b|]; [|discriminate]. rewrite in_app_iff. intros [K|K]; [exact (RL a eq_refl K)|exact (B b eq_refl K)]. }
  unfold outcome. destruct (run (bleu_combiner m pw words compute_bleu) s) as [x|] eqn:E; [exfalso; exact (G x eq_refl I)|reflexivity].
Qed.

Lemma C189_order_refuted_pf : exists rows rows' hyps,
  Permutation rows rows' /\
  is_ok (outcome (bleu_combiner 4 ex_tokens ex_words (fun a => a)) (Bundle [TextExample (Some rows) (Some hyps)])) = true /\
  outcome (bleu_combiner 4 ex_tokens ex_words (fun a => a)) (Bundle [TextExample (Some rows) (Some hyps)]) <>
  outcome (bleu_combiner 4 ex_tokens ex_words (fun a => a)) (Bundle [TextExample (Some rows') (Some hyps)]).
Proof.
  exists [[Some "a b"]; [Some "a b c d"]], [[Some "a b c d"]; [Some "a b"]], ["a b c"].
  split; [apply perm_swap|]. split; [reflexivity|]. vm_compute. discriminate.
Qed.

Lemma C189_order_partial_pf : forall V (compute_bleu : bleu_acc -> V) m pw words s1 s2,
  (forall e, In e (inputs s1) -> exists x, contributes pw words e x) ->
  Forall2 (fun e e' => exists rows rows' hyps, e = TextExample (Some rows) (Some hyps) /\ e' = TextExample (Some rows') (Some hyps) /\ Permutation rows rows' /\
     forall j a b, j < length hyps -> In a (references_of pw rows j) -> In b (references_of pw rows j) ->
       apart (length a) (length (pw (nth j hyps ""))) = apart (length b) (length (pw (nth j hyps ""))) -> length a = length b)
    (inputs s1) (inputs s2) ->
  outcome (bleu_combiner m pw words compute_bleu) s1 = outcome (bleu_combiner m pw words compute_bleu) s2.
Proof.
  intros V compute_bleu m pw words s1 s2 H F.
  assert (X : exists xs ys, Forall2 (contributes pw words) (inputs s1) xs /\ Forall2 (contributes pw words) (inputs s2) ys /\
     Forall2 same_segment (flat_map fst xs) (flat_map fst ys) /\ list_sum (map snd xs) = list_sum (map snd ys)).
  { revert H. induction F as [|e e' l l' (rows & rows' & hyps & -> & -> & P & T) F IH]; intros H.
    - exists [], []. repeat (split; [constructor|]). reflexivity.
    - destruct IH as (xs & ys & G1 & G2 & G3 & G4); [intros; apply H; right; assumption|].
      destruct (H _ (or_introl eq_refl)) as (x & rw & hy & ER & EH & C). cbn [te_references te_hypotheses] in ER, EH. injection ER as <-. injection EH as <-.
      destruct C as [[B ->]|(B & L & -> & G)].
      + exists (([], list_sum (map (fun h => length (words h)) hyps)) :: xs), (([], list_sum (map (fun h => length (words h)) hyps)) :: ys).
        split; [constructor; [exists rows, hyps; auto|exact G1]|]. split; [|split; [exact G3|cbn [map snd]; unfold list_sum in *; cbn [fold_right]; lia]].
        constructor; [|exact G2]. exists rows', hyps. split; [reflexivity|]. split; [reflexivity|]. left. split; [|reflexivity].
        intros row r I. apply B. apply (Permutation_in _ (Permutation_sym P)). exact I.
      + set (f := fun j => Segment (pw (nth j hyps "")) (references_of pw rows j)). set (f' := fun j => Segment (pw (nth j hyps "")) (references_of pw rows' j)).
        assert (PR : forall j, Permutation (references_of pw rows j) (references_of pw rows' j)) by (intros j; apply Permutation_flat_map; exact P).
        exists ((map f (seq 0 (length hyps)), 0) :: xs), ((map f' (seq 0 (length hyps)), 0) :: ys).
        split; [constructor; [exists rows, hyps; split; [reflexivity|]; split; [reflexivity|]; right; auto|exact G1]|].
        split; [constructor; [|exact G2]|split].
        * exists rows', hyps. split; [reflexivity|]. split; [reflexivity|]. right. split; [|split; [|split; [reflexivity|]]].
          -- intros B'. apply B. intros row r I. apply B'. apply (Permutation_in _ P). exact I.
          -- intros row I. apply L. apply (Permutation_in _ (Permutation_sym P)). exact I.
          -- intros g I. cbn [fst] in I. apply in_map_iff in I. destruct I as (j & <- & J). cbn [f' sg_refs]. intros E. apply (G (f j)); [cbn [fst]; apply in_map; exact J|].
             cbn [f sg_refs]. specialize (PR j). rewrite E in PR. apply Permutation_nil. symmetry. exact PR.
        * cbn [flat_map fst]. apply Forall2_app; [|exact G3].
          assert (SJ : forall js, (forall j, In j js -> j < length hyps) -> Forall2 same_segment (map f js) (map f' js)).
          { induction js as [|j js IHJ]; intros K; cbn [map]; constructor; [|apply IHJ; intros; apply K; right; assumption].
            split; [reflexivity|]. split; [apply PR|]. right. intros a b A' B'. apply (T j a b); auto. apply K. left. reflexivity. }
          apply SJ. intros j J. apply in_seq in J. lia.
        * cbn [map snd]. unfold list_sum in *. cbn [fold_right]. exact G4. }
  destruct X as (xs & ys & F1 & F2 & SG & ES).
  destruct (C188_statistics_pf V compute_bleu m pw words s1 xs F1) as (a & -> & A). destruct (C188_statistics_pf V compute_bleu m pw words s2 ys F2) as (b & -> & B).
  f_equal. f_equal. exact (corpus_fun m a b xs ys A B SG ES).
Qed.

Lemma C190_blank_refuted_pf : exists hyps r a b,
  outcome (bleu_combiner 1 ex_tokens ex_words (fun a => a)) (Bundle [TextExample (Some [[Some ""]]) (Some hyps)]) = Ok a /\
  outcome (bleu_combiner 1 ex_tokens ex_words (fun a => a)) (Bundle [TextExample (Some [[Some r]]) (Some hyps)]) = Ok b /\
  ex_tokens r = [] /\ hyp_len a <> hyp_len b /\ total_ngrams a <> total_ngrams b.
Proof. exists ["Google."], " ". eexists. eexists. split; [reflexivity|]. split; [reflexivity|]. split; [reflexivity|]. split; vm_compute; discriminate. Qed.

Lemma C190_length_partial_pf : forall m words s xs,
  Forall2 (contributes words words) (inputs s) xs ->
  exists a, outcome (bleu_combiner m words words (fun a => a)) s = Ok a /\
    hyp_len a = list_sum (map (fun e => match te_hypotheses e with Some hs => list_sum (map (fun h => length (words h)) hs) | None => 0 end) (inputs s)).
Proof.
  intros m words s xs F. destruct (C188_statistics_pf bleu_acc (fun a => a) m words words s xs F) as (a & E & C). exists a. split; [exact E|].
  destruct C as (_ & _ & _ & _ & -> & _). clear E. induction F as [|e x es xs C F IH]; [reflexivity|]. cbn [flat_map map]. rewrite map_app, list_sum_app.
  destruct C as (rows & hyps & ER & EH & C). rewrite EH.
  assert (K : list_sum (map (fun g => length (sg_hyp g)) (fst x)) + snd x = list_sum (map (fun h => length (words h)) hyps)).
  { destruct C as [[_ ->]|(_ & _ & -> & _)]; cbn [fst snd]; [reflexivity|]. rewrite map_map. cbn [sg_hyp].
    rewrite <- (map_map (fun j => nth j hyps "") (fun h => length (words h))), map_nth_seq. lia. }
  rewrite !list_sum_cons, <- IH, <- K. lia.
Qed.

Lemma C191_extra_hypothesis_refuted_pf : exists rows hyps extra,
  (forall row, In row rows -> length row = length hyps) /\
  is_ok (outcome (bleu_combiner 4 ex_tokens ex_words (fun a => a)) (Bundle [TextExample (Some rows) (Some hyps)])) = true /\
  ex_tokens extra <> [] /\
  outcome (bleu_combiner 4 ex_tokens ex_words (fun a => a)) (Bundle [TextExample (Some rows) (Some (hyps ++ [extra]))]) =
  outcome (bleu_combiner 4 ex_tokens ex_words (fun a => a)) (Bundle [TextExample (Some rows) (Some hyps)]).
Proof. exists [[Some "a b"]], ["a b"], "something else". split; [intros row [<-|[]]; reflexivity|]. split; [reflexivity|]. split; [vm_compute; discriminate|reflexivity]. Qed.

Lemma C191_columns_partial_pf : forall V (compute_bleu : bleu_acc -> V) m pw words rows hyps extra x,
  contributes pw words (TextExample (Some rows) (Some hyps)) x -> ~ blank rows ->
  outcome (bleu_combiner m pw words compute_bleu) (Bundle [TextExample (Some rows) (Some (hyps ++ extra))]) =
  outcome (bleu_combiner m pw words compute_bleu) (Bundle [TextExample (Some rows) (Some hyps)]).
Proof.
  intros V compute_bleu m pw words rows hyps extra x C B. unfold outcome. cbn [run fold_left bleu_combiner res_combiner c_add c_create c_extract bind]. f_equal.
  unfold bleu_add. cbn [te_references te_hypotheses]. f_equal. unfold extract_corpus_statistics.
  destruct (forallb _ rows) eqn:E; [exfalso; apply B, blank_dec; exact E|].
  destruct C as (rows' & hyps' & R & H & C). cbn [te_references te_hypotheses] in R, H. injection R as <-. injection H as <-.
  destruct C as [[B' _]|(_ & L & _)]; [contradiction|].
  destruct (extract_reference_ngrams_and_lens m pw rows) as [infos|] eqn:EI; [|reflexivity]. cbn [bind]. f_equal.
  assert (LI : length infos = length hyps).
  { unfold extract_reference_ngrams_and_lens in EI. rewrite (columns_table rows (length hyps)) in EI; [|intros ->; apply B; intros ? ? []|exact L].
    assert (ML : forall A B (f : A -> res B) l r, mapM f l = Ok r -> length r = length l).
    { clear. induction l as [|y l IH]; intros r M; cbn [mapM] in M; [injection M as <-; reflexivity|]. destruct (f y); [|discriminate]. cbn [bind] in M. destruct (mapM f l); [|discriminate]. cbn [bind] in M. injection M as <-. cbn [length]. f_equal. apply IH. reflexivity. }
    apply ML in EI. rewrite EI, map_length, seq_length. reflexivity. }
  clear -LI. revert infos LI. induction hyps as [|h hyps IH]; intros [|i infos] LI; try discriminate; [destruct extra; reflexivity|]. cbn [app combine]. f_equal. apply IH. injection LI as LI. exact LI.
Qed.

Lemma C192_models_refuted_pf : exists class name m1 m2 s,
  m1 <> m2 /\ filter_and_separate_computations (text_computations class name [m1; m2] [""]) = Ok s /\
  forall ic, In ic (sp_base s) -> fst (cp_body (snd ic)) <> m2.
Proof.
  exists "_BleuCombiner", "bleu", "base", "candidate". eexists. split; [discriminate|]. split; [reflexivity|].
  intros ic [<-|[]]. discriminate.
Qed.

Lemma C192_first_partial_pf : forall class name m ms o os,
  exists s, filter_and_separate_computations (text_computations class name (m :: ms) (o :: os)) = Ok s /\
    map (fun ic => cp_body (snd ic)) (sp_base s) = [(m, o)] /\ map (fun ic => cp_keys (snd ic)) (sp_base s) = [[MetricKey name "" "" None None None false]] /\
    sp_derived s = [] /\ sp_cross s = [] /\ sp_ci s = [].
Proof.
  intros class name m ms o os. set (c := Computation (Combine class []) [text_key name] (m, o)).
  assert (I : exists i, forall b : string * string, comp_id (Computation (Combine class []) [text_key name] b) = Ok i) by (eexists; intros b; reflexivity).
  destruct I as (i & I). exists (Separated [(i, c)] [] [] []). split; [|repeat (split; [reflexivity|]); reflexivity].
  assert (S : forall l, (forall d, In d l -> exists b, d = Computation (Combine class []) [text_key name] b) ->
    foldM separate_step l (Separated [(i, c)] [] [] []) = Ok (Separated [(i, c)] [] [] [])).
  { induction l as [|d l IH]; intros H; [reflexivity|]. cbn [foldM]. destruct (H d (or_introl eq_refl)) as (b & ->). unfold separate_step at 1. rewrite I. cbn [bind cp_kind sp_base sp_derived sp_cross sp_ci].
    unfold add_new. cbn [existsb fst]. assert (E : id_eqb i i = true) by (apply id_eqb_eq; reflexivity). rewrite E. cbn [orb]. apply IH. intros; apply H; right; assumption. }
  unfold filter_and_separate_computations, text_computations. cbn [flat_map map app foldM]. unfold separate_step at 1. fold c. unfold c at 1. rewrite I. cbn [bind cp_kind sp_base sp_derived sp_cross sp_ci c add_new existsb app].
  apply S. intros d D. apply in_app_iff in D. destruct D as [D|D].
  - apply in_map_iff in D. destruct D as (o' & <- & _). eauto.
  - apply in_flat_map in D. destruct D as (m' & _ & [<-|D]); [eauto|]. apply in_map_iff in D. destruct D as (o' & <- & _). eauto.
Qed.

Lemma occurs_all n h gs : 1 <= n -> NoDup gs -> (forall g, In g gs <-> length g = n /\ 0 < occurs g h) ->
  list_sum (map (fun g => occurs g h) gs) = length h + 1 - n.
Proof.
  intros N ND I. destruct (ngrams_facts n h) as (A & B & C & D). cbv zeta in *. rewrite <- (D n) by lia. clear D.
  set (c := fst (extract_all_word_ngrams n h)) in *. set (d := filter (fun gn : list string * nat => Nat.eqb (length (fst gn)) n) c).
  assert (ND' : NoDup (map fst d)).
  { unfold d. clear -A. induction c as [|[g k] c IH]; [constructor|]. cbn [map fst] in A. inversion A; subst. cbn [filter fst]. destruct (Nat.eqb (length g) n); [|auto]. cbn [map fst]. constructor; [|auto].
    intros J. apply in_map_iff in J. destruct J as ([g' k'] & E & J). cbn [fst] in E. subst g'. apply filter_In in J. apply H1. apply in_map_iff. exists (g, k'). tauto. }
  assert (K : forall g k, In (g, k) d -> k = occurs g h /\ length g = n).
  { intros g k J. unfold d in J. apply filter_In in J. destruct J as [J E]. cbn [fst] in E. apply Nat.eqb_eq in E. split; [|exact E].
    specialize (C g). rewrite E in C. replace (Nat.leb 1 n) with true in C by (symmetry; apply Nat.leb_le; lia). rewrite Nat.leb_refl in C. cbn [andb] in C. rewrite <- C.
    unfold counted. apply (dget_In_NoDup gram_eqb gram_eqb_eq c g k A) in J. rewrite J. reflexivity. }
  assert (P : Permutation gs (map fst d)).
  { apply NoDup_Permutation; [exact ND|exact ND'|]. intros g. rewrite I. rewrite in_map_iff. split.
    - intros [L O]. specialize (C g). rewrite L in C. replace (Nat.leb 1 n) with true in C by (symmetry; apply Nat.leb_le; lia). rewrite Nat.leb_refl in C. cbn [andb] in C.
      unfold counted in C. destruct (dget gram_eqb c g) as [k|] eqn:E; [|lia]. exists (g, k). split; [reflexivity|]. unfold d. apply filter_In. split; [apply (dget_In gram_eqb gram_eqb_eq); exact E|]. cbn [fst]. apply Nat.eqb_eq. exact L.
    - intros ([g' k] & E & J). cbn [fst] in E. subst g'. destruct (K g k J) as [E L]. split; [exact L|]. rewrite <- E. apply (B g k). unfold d in J. apply filter_In in J. tauto. }
  rewrite (list_sum_perm _ _ (Permutation_map _ P)), map_map. f_equal. apply map_ext_in. intros [g k] J. cbn [fst snd]. symmetry. apply K. exact J.
Qed.

Lemma list_sum_le {A} (f g : A -> nat) l : (forall x, In x l -> f x <= g x) -> list_sum (map f l) <= list_sum (map g l).
Proof. induction l as [|x l IH]; intros H; cbn [map]; [lia|]. rewrite !list_sum_cons. specialize (H x (or_introl eq_refl)) as Hx. assert (list_sum (map f l) <= list_sum (map g l)) by (apply IH; intros; apply H; right; assumption). lia. Qed.

Lemma clipped_le n h refs k : 1 <= n -> clipped n h refs k -> k <= length h + 1 - n.
Proof. intros N (gs & ND & I & ->). rewrite <- (occurs_all n h gs N ND I). apply list_sum_le. intros g _. lia. Qed.

Lemma most_ge g refs r : In r refs -> occurs g r <= most g refs.
Proof.
  intros I. unfold most. assert (F : Forall (fun k => k <= list_max (map (occurs g) refs)) (map (occurs g) refs)) by (apply list_max_le; lia).
  rewrite Forall_forall in F. apply F. apply in_map. exact I.
Qed.

Lemma clipped_full n h refs k : 1 <= n -> In h refs -> clipped n h refs k -> k = length h + 1 - n.
Proof.
  intros N H (gs & ND & I & ->). rewrite <- (occurs_all n h gs N ND I). f_equal. apply map_ext. intros g. pose proof (most_ge g refs h H). lia.
Qed.

Lemma clipped_mono n h refs refs' k k' : incl refs refs' -> clipped n h refs k -> clipped n h refs' k' -> k <= k'.
Proof.
  intros S (gs & ND & I & ->) (gs' & ND' & I' & ->).
  assert (G : Permutation gs gs') by (apply NoDup_Permutation; [exact ND|exact ND'|]; intros g; rewrite I, I'; reflexivity).
  rewrite (list_sum_perm _ _ (Permutation_map _ G)). apply list_sum_le. intros g _.
  assert (M : most g refs <= most g refs'); [|lia]. unfold most at 1. apply list_max_le. apply Forall_forall. intros x X. apply in_map_iff in X. destruct X as (r & <- & R). apply most_ge. apply S. exact R.
Qed.

Lemma C193_at_most_all_pf : forall m pw words s xs,
  Forall2 (contributes pw words) (inputs s) xs ->
  exists a, outcome (bleu_combiner m pw words (fun a => a)) s = Ok a /\
    forall i, nth i (matching_ngrams a) 0 <= nth i (total_ngrams a) 0.
Proof.
  intros m pw words s xs F. destruct (C188_statistics_pf bleu_acc (fun a => a) m pw words s xs F) as (a & E & A1 & A2 & A3 & A4 & _). exists a. split; [exact E|].
  intros i. destruct (Nat.lt_ge_cases i m) as [L|L]; [|rewrite !nth_overflow by lia; lia].
  destruct (A3 (i + 1)) as (ks & FK & EK); [lia|]. specialize (A4 (i + 1)). replace (i + 1 - 1) with i in EK, A4 by lia. rewrite EK, A4 by lia.
  clear -FK. induction FK as [|g k gs ks C FK IH]; cbn [map]; [lia|]. rewrite !list_sum_cons. apply clipped_le in C; lia.
Qed.

Lemma C193_exact_pf : forall m pw words s,
  (forall e, In e (inputs s) -> exists rows hyps, e = TextExample (Some rows) (Some hyps) /\ ~ blank rows /\
     (forall row, In row rows -> length row = length hyps) /\
     forall j, j < length hyps -> In (pw (nth j hyps "")) (references_of pw rows j)) ->
  exists a, outcome (bleu_combiner m pw words (fun a => a)) s = Ok a /\
    matching_ngrams a = total_ngrams a /\ ref_len a = hyp_len a.
Proof.
  intros m pw words s H.
  assert (X : exists xs, Forall2 (contributes pw words) (inputs s) xs /\ (forall g, In g (flat_map fst xs) -> In (sg_hyp g) (sg_refs g)) /\ list_sum (map snd xs) = 0).
  { induction (inputs s) as [|e es IH]; [exists []; split; [constructor|]; split; [intros g []|reflexivity]|]. destruct IH as (xs & F & G & Z); [intros; apply H; right; assumption|].
    destruct (H e (or_introl eq_refl)) as (rows & hyps & -> & B & L & J).
    set (gs := map (fun j => Segment (pw (nth j hyps "")) (references_of pw rows j)) (seq 0 (length hyps))).
    assert (K : forall g, In g gs -> In (sg_hyp g) (sg_refs g)). { intros g I. apply in_map_iff in I. destruct I as (j & <- & I). apply in_seq in I. cbn [sg_hyp sg_refs]. apply J. lia. }
    exists ((gs, 0) :: xs). split; [constructor; [|exact F]|split].
    - exists rows, hyps. split; [reflexivity|]. split; [reflexivity|]. right. split; [exact B|]. split; [exact L|]. split; [reflexivity|]. intros g I E. specialize (K g I). rewrite E in K. destruct K.
    - intros g I. cbn [flat_map fst] in I. apply in_app_iff in I. destruct I; auto.
    - cbn [map snd]. rewrite list_sum_cons. exact Z. }
  destruct X as (xs & F & G & Z). destruct (C188_statistics_pf bleu_acc (fun a => a) m pw words s xs F) as (a & E & A1 & A2 & A3 & A4 & A5 & rs & A6 & A7). exists a. split; [exact E|]. split.
  - apply (nth_ext _ _ 0 0); [congruence|]. intros i L. rewrite A1 in L. destruct (A3 (i + 1)) as (ks & FK & EK); [lia|]. specialize (A4 (i + 1)). replace (i + 1 - 1) with i in EK, A4 by lia. rewrite EK, A4 by lia.
    clear -FK G. induction FK as [|g k gs ks C FK IH]; cbn [map]; [reflexivity|]. rewrite !list_sum_cons. f_equal; [|apply IH; intros; apply G; right; assumption]. apply clipped_full in C; [exact C|lia|apply G; left; reflexivity].
  - rewrite A5, A7, Z, Nat.add_0_r. clear -A6 G. induction A6 as [|g k gs ks C FK IH]; cbn [map]; [reflexivity|]. rewrite !list_sum_cons. f_equal; [|apply IH; intros; apply G; right; assumption].
    pose proof (nearest_best _ _ _ (length (sg_hyp g)) C) as B. specialize (B (in_map _ _ _ (G g (or_introl eq_refl)))). unfold apart in B. lia.
Qed.

Lemma C193_more_references_pf : forall m pw words s1 s2,
  (forall e, In e (inputs s1 ++ inputs s2) -> exists x, contributes pw words e x) ->
  Forall2 (fun e e' => exists rows more hyps, ~ blank rows /\ e = TextExample (Some rows) (Some hyps) /\ e' = TextExample (Some (rows ++ more)) (Some hyps)) (inputs s1) (inputs s2) ->
  exists a b, outcome (bleu_combiner m pw words (fun a => a)) s1 = Ok a /\ outcome (bleu_combiner m pw words (fun a => a)) s2 = Ok b /\
    (forall i, nth i (matching_ngrams a) 0 <= nth i (matching_ngrams b) 0) /\ total_ngrams a = total_ngrams b /\ hyp_len a = hyp_len b.
Proof.
  intros m pw words s1 s2 H F.
  assert (X : exists xs ys, Forall2 (contributes pw words) (inputs s1) xs /\ Forall2 (contributes pw words) (inputs s2) ys /\
     Forall2 (fun g g' => sg_hyp g = sg_hyp g' /\ incl (sg_refs g) (sg_refs g')) (flat_map fst xs) (flat_map fst ys) /\ list_sum (map snd xs) = 0 /\ list_sum (map snd ys) = 0).
  { revert H. induction F as [|e e' l l' (rows & more & hyps & B & -> & ->) F IH]; intros H.
    - exists [], []. repeat (split; [constructor|]). reflexivity.
    - destruct IH as (xs & ys & G1 & G2 & G3 & G4 & G5); [intros e I; apply H; cbn [app]; right; apply in_app_iff; apply in_app_iff in I; destruct I; [left; assumption|right; right; assumption]|].
      destruct (H (TextExample (Some rows) (Some hyps))) as (x & C); [left; reflexivity|]. destruct (H (TextExample (Some (rows ++ more)) (Some hyps))) as (x' & C'); [apply in_app_iff; right; left; reflexivity|].
      pose proof C as CC. pose proof C' as CC'. destruct CC as (rw & hy & ER & EH & D). cbn [te_references te_hypotheses] in ER, EH. injection ER as <-. injection EH as <-.
      destruct CC' as (rw & hy & ER & EH & D'). cbn [te_references te_hypotheses] in ER, EH. injection ER as <-. injection EH as <-.
      destruct D as [[D _]|(_ & _ & -> & _)]; [contradiction|]. destruct D' as [[D' _]|(_ & _ & -> & _)]; [exfalso; apply B; intros row r I; apply D'; apply in_app_iff; left; exact I|].
      eexists. eexists. split; [constructor; [exact C|exact G1]|]. split; [constructor; [exact C'|exact G2]|]. split; [|split; cbn [map snd]; rewrite list_sum_cons; assumption].
      cbn [flat_map fst]. apply Forall2_app; [|exact G3]. clear. induction (seq 0 (length hyps)) as [|j js IHJ]; cbn [map]; [constructor|]. constructor; [|exact IHJ]. cbn [sg_hyp sg_refs]. split; [reflexivity|].
      unfold references_of. rewrite flat_map_app. apply incl_appl, incl_refl. }
  destruct X as (xs & ys & F1 & F2 & G & Z1 & Z2).
  destruct (C188_statistics_pf bleu_acc (fun a => a) m pw words s1 xs F1) as (a & E & A1 & A2 & A3 & A4 & A5 & _). destruct (C188_statistics_pf bleu_acc (fun a => a) m pw words s2 ys F2) as (b & E' & B1 & B2 & B3 & B4 & B5 & _).
  exists a, b. split; [exact E|]. split; [exact E'|].
  assert (L : forall h, list_sum (map (fun g => h (length (sg_hyp g))) (flat_map fst xs)) = list_sum (map (fun g => h (length (sg_hyp g))) (flat_map fst ys))).
  { intros h. f_equal. clear -G. induction G as [|g g' l l' SG F IH]; [reflexivity|]. cbn [map]. destruct SG as (-> & _). f_equal. exact IH. }
  split; [|split].
  - intros i. destruct (Nat.lt_ge_cases i m) as [I|I]; [|rewrite !nth_overflow by lia; lia].
    destruct (A3 (i + 1)) as (ks & FK & EK); [lia|]. destruct (B3 (i + 1)) as (ks' & FK' & EK'); [lia|]. replace (i + 1 - 1) with i in EK, EK' by lia. rewrite EK, EK'.
    clear -G FK FK'. revert ks ks' FK FK'. induction G as [|g g' l l' SG G IH]; intros ks ks' FK FK'; inversion FK; inversion FK'; subst; [lia|]. rewrite !list_sum_cons.
    destruct SG as (EH & S). rewrite EH in *. pose proof (clipped_mono _ _ _ _ _ _ S ltac:(eassumption) ltac:(eassumption)). specialize (IH _ _ ltac:(eassumption) ltac:(eassumption)). lia.
  - apply (nth_ext _ _ 0 0); [congruence|]. intros i I. rewrite A2 in I. specialize (A4 (i + 1)). specialize (B4 (i + 1)). replace (i + 1 - 1) with i in A4, B4 by lia. rewrite A4, B4 by lia. apply (L (fun n => n + 1 - (i + 1))).
  - rewrite A5, B5, Z1, Z2. rewrite (L (fun n => n)). reflexivity.
Qed.

(** The first prediction of an example is rated against its labels, with the weight the
    example has. *)

Definition rated (score_multi : list string -> string -> Qc * Qc * Qc) (e : summary_example) (x : Qc * (Qc * Qc * Qc)) : Prop :=
  exists labels y more, se_labels e = Some labels /\ se_predictions e = Some (y :: more) /\
    se_weights e <> [] /\ (forall w, In w (se_weights e) -> w = fst x) /\ snd x = score_multi labels y.

Definition total_weight (ts : list (Qc * (Qc * Qc * Qc))) : Qc := qsum (map fst ts).

(** The mean of a component of the scores *)

Definition mean_score (f : Qc * Qc * Qc -> Qc) (ts : list (Qc * (Qc * Qc * Qc))) : Qc := (qsum (map (fun t => f (snd t) * fst t) ts) / total_weight ts)%Qc.

Definition prec (x : Qc * Qc * Qc) := fst (fst x).

Definition rec (x : Qc * Qc * Qc) := snd (fst x).

Definition fmeas (x : Qc * Qc * Qc) := snd x.

Lemma single_weight_ok ws w : ws <> [] -> (forall x, In x ws -> x = w) -> exists t, single_weight ws = Ok (w :: t).
Proof.
  intros N H. destruct ws as [|a [|b ws]]; [contradiction| |].
  - exists []. cbn [single_weight]. rewrite (H a (or_introl eq_refl)). reflexivity.
  - exists []. unfold single_weight. assert (A : a = w) by (apply H; left; reflexivity). subst a. replace (forallb _ _) with true; [reflexivity|]. symmetry. apply forallb_forall. intros x X. apply Qc_eqb_eq. apply H. exact X.
Qed.

Lemma rouge_run score_multi s ts : Forall2 (rated score_multi) (inputs s) ts ->
  run (rouge_combiner score_multi) s =
  Ok (RougeAcc (total_weight ts) (qsum (map (fun t => prec (snd t) * fst t) ts))%Qc (qsum (map (fun t => rec (snd t) * fst t) ts))%Qc (qsum (map (fun t => fmeas (snd t) * fst t) ts))%Qc).
Proof.
  intros F.
  assert (G : Forall (fun e => exists x, rated score_multi e x) (inputs s)) by (clear -F; induction F; constructor; eauto).
  destruct (res_rel_run (RougeAcc 0 0 0 0)%Qc (rouge_add score_multi) rouge_plus rouge_extract (fun e => exists x, rated score_multi e x)
    (fun a es => forall ts, Forall2 (rated score_multi) es ts -> a = RougeAcc (total_weight ts) (qsum (map (fun t => prec (snd t) * fst t) ts))%Qc (qsum (map (fun t => rec (snd t) * fst t) ts))%Qc (qsum (map (fun t => fmeas (snd t) * fst t) ts))%Qc))
    with (s := s) as (a & E & R); [| | |exact G|].
  - intros ts0 F0. inversion F0. reflexivity.
  - intros a es e R (x & labels & y & more & L & P & N & W & S). unfold rouge_add. rewrite L, P. destruct (single_weight_ok _ _ N W) as (t & ->). cbn [bind].
    destruct (score_multi labels y) as [[p r] f] eqn:SM. eexists. split; [reflexivity|]. intros ts0 F0. apply Forall2_app_inv_l in F0. destruct F0 as (t1 & t2 & F1 & F2 & ->). inversion F2 as [|? x' ? t3 RX F3]; subst. inversion F3; subst.
    rewrite (R t1 F1). destruct RX as (labels' & y' & more' & L' & P' & N' & W' & S'). rewrite L in L'. rewrite P in P'. injection L' as <-. injection P' as <- <-.
    assert (WW : fst x' = fst x) by (destruct (se_weights e) as [|w ws]; [contradiction|]; rewrite <- (W w (or_introl eq_refl)), <- (W' w (or_introl eq_refl)); reflexivity).
    unfold total_weight. rewrite !map_app, !qsum_app. cbn [map qsum weighted_count total_precision total_recall total_fmeasure]. rewrite S', SM, WW. unfold prec, rec, fmeas. cbn [fst snd]. unfold qsum. cbn [fold_right]. f_equal; ring.
  - intros a b l k A B ts0 F0. apply Forall2_app_inv_l in F0. destruct F0 as (t1 & t2 & F1 & F2 & ->). rewrite (A t1 F1), (B t2 F2). unfold rouge_plus, total_weight. cbn [weighted_count total_precision total_recall total_fmeasure]. rewrite !map_app, !qsum_app. reflexivity.
  - unfold rouge_combiner. rewrite E. f_equal. apply R. exact F.
Qed.

Lemma C194_means_pf : forall score_multi s ts,
  Forall2 (rated score_multi) (inputs s) ts ->
  (total_weight ts = 0%Qc -> outcome (rouge_combiner score_multi) s = Ok (Score NaN NaN NaN)) /\
  (total_weight ts <> 0%Qc -> outcome (rouge_combiner score_multi) s = Ok (Score (Fin (mean_score prec ts)) (Fin (mean_score rec ts)) (Fin (mean_score fmeas ts)))).
Proof.
  intros score_multi s ts F. unfold outcome. rewrite (rouge_run _ _ _ F). cbn [rouge_combiner res_combiner c_extract bind]. unfold rouge_extract. cbn [weighted_count total_precision total_recall total_fmeasure].
  split; intros H; [rewrite H, Qc_eqb_refl; reflexivity|]. destruct (Qc_eqb (total_weight ts) 0%Qc) eqn:E; [apply Qc_eqb_eq in E; contradiction|]. reflexivity.
Qed.

Definition ex_rouge (labels : list string) (y : string) : Qc * Qc * Qc :=
  if String.eqb y "a" then (1%Qc, 0%Qc, 0%Qc) else if String.eqb y "b" then (0%Qc, 1%Qc, 0%Qc) else (1%Qc, Q2Qc (1 # 2), Q2Qc (2 # 3)).

Lemma mean_between f ts lo hi : (forall t, In t ts -> 0 <= fst t /\ lo <= f (snd t) <= hi)%Qc -> total_weight ts <> 0%Qc ->
  (lo <= mean_score f ts <= hi)%Qc.
Proof.
  intros H N. assert (P : (0 <= total_weight ts)%Qc) by (apply qsum_nonneg; intros x X; apply in_map_iff in X; destruct X as (t & <- & T); apply H; exact T).
  assert (P' : (0 < total_weight ts)%Qc) by (apply Qcle_lt_or_eq in P; destruct P as [P|P]; [exact P|symmetry in P; contradiction]).
  assert (L : (qsum (map (fun t => lo * fst t) ts) <= qsum (map (fun t => f (snd t) * fst t) ts))%Qc).
  { apply qsum_map_le. intros t T. destruct (H t T) as (A & B & C). apply Qcmult_le_compat_r; assumption. }
  assert (U : (qsum (map (fun t => f (snd t) * fst t) ts) <= qsum (map (fun t => hi * fst t) ts))%Qc).
  { apply qsum_map_le. intros t T. destruct (H t T) as (A & B & C). apply Qcmult_le_compat_r; assumption. }
  rewrite qsum_map_scale in L, U. fold (total_weight ts) in L, U. unfold mean_score.
  set (q := qsum (map (fun t => f (snd t) * fst t)%Qc ts)) in *. set (w := total_weight ts) in *. clearbody q w.
  assert (E : (q / w * w = q)%Qc) by (field; exact N). set (z := (q / w)%Qc) in *. clearbody z. rewrite <- E in L, U.
  split; apply Qcmult_lt_0_le_reg_r with w; assumption.
Qed.

Lemma C194_between_pf : forall score_multi s ts lo hi,
  Forall2 (rated score_multi) (inputs s) ts -> total_weight ts <> 0%Qc ->
  (forall t, In t ts -> (0 <= fst t)%Qc /\ (lo <= prec (snd t) <= hi)%Qc /\ (lo <= rec (snd t) <= hi)%Qc /\ (lo <= fmeas (snd t) <= hi)%Qc) ->
  exists p r f, outcome (rouge_combiner score_multi) s = Ok (Score (Fin p) (Fin r) (Fin f)) /\
    (lo <= p <= hi)%Qc /\ (lo <= r <= hi)%Qc /\ (lo <= f <= hi)%Qc.
Proof.
  intros score_multi s ts lo hi F N H. destruct (C194_means_pf score_multi s ts F) as [_ E]. exists (mean_score prec ts), (mean_score rec ts), (mean_score fmeas ts).
  split; [exact (E N)|]. split; [|split]; apply mean_between; try exact N; intros t T; destruct (H t T) as (A & B & C & D); auto.
Qed.

(** [f] is the harmonic mean of [p] and [r]. *)

Definition harmonic (p r f : Qc) : Prop := (f * (p + r) = qz 2 * p * r)%Qc /\ ((p + r)%Qc = 0%Qc -> f = 0%Qc).

Lemma C195_harmonic_refuted_pf : exists score_multi s p r f,
  (forall labels y, let '(a, b, c) := score_multi labels y in harmonic a b c) /\
  outcome (rouge_combiner score_multi) s = Ok (Score (Fin p) (Fin r) (Fin f)) /\ ~ harmonic p r f.
Proof.
  exists ex_rouge, (Bundle [SummaryExample (Some ["l"]) (Some ["a"]) [1%Qc]; SummaryExample (Some ["l"]) (Some ["b"]) [1%Qc]]), (Q2Qc (1 # 2)), (Q2Qc (1 # 2)), 0%Qc.
  split; [|split].
  - intros labels y. unfold ex_rouge, harmonic. destruct (String.eqb y "a"); [|destruct (String.eqb y "b")]; (split; [vm_compute; qc_ex|intros E; vm_compute in E; first [discriminate|reflexivity]]).
  - vm_compute. qc_ex.
  - intros [E _]. vm_compute in E. discriminate.
Qed.

Lemma C195_at_most_partial_pf : forall score_multi s ts,
  Forall2 (rated score_multi) (inputs s) ts -> total_weight ts <> 0%Qc ->
  (forall t, In t ts -> (0 <= fst t)%Qc /\ (0 <= prec (snd t))%Qc /\ (0 <= rec (snd t))%Qc /\ harmonic (prec (snd t)) (rec (snd t)) (fmeas (snd t))) ->
  exists p r f, outcome (rouge_combiner score_multi) s = Ok (Score (Fin p) (Fin r) (Fin f)) /\ (f * (p + r) <= qz 2 * p * r)%Qc.
Proof.
  intros score_multi s ts F N H. destruct (C194_means_pf score_multi s ts F) as [_ E]. exists (mean_score prec ts), (mean_score rec ts), (mean_score fmeas ts).
  split; [exact (E N)|]. clear E F.
  assert (W : (0 <= total_weight ts)%Qc) by (apply qsum_nonneg; intros x X; apply in_map_iff in X; destruct X as (t & <- & T); apply H; exact T).
  assert (W' : (0 < total_weight ts)%Qc) by (apply Qcle_lt_or_eq in W; destruct W as [W|W]; [exact W|symmetry in W; contradiction]).
  unfold mean_score. set (P := qsum (map (fun t => prec (snd t) * fst t) ts)%Qc). set (R := qsum (map (fun t => rec (snd t) * fst t) ts)%Qc). set (M := qsum (map (fun t => fmeas (snd t) * fst t) ts)%Qc).
  assert (P0 : (0 <= P)%Qc) by (apply qsum_nonneg; intros x X; apply in_map_iff in X; destruct X as (t & <- & T); destruct (H t T) as (A & B & C & _); qc_nra).
  assert (R0 : (0 <= R)%Qc) by (apply qsum_nonneg; intros x X; apply in_map_iff in X; destruct X as (t & <- & T); destruct (H t T) as (A & B & C & _); qc_nra).
  assert (K : (M * ((P + R) * (P + R)) <= qz 2 * (R * R * P + P * P * R))%Qc).
  { assert (L : (qsum (map (fun t => (P + R) * (P + R) * (fmeas (snd t) * fst t)) ts) <= qsum (map (fun t => qz 2 * (R * R) * (prec (snd t) * fst t) + qz 2 * (P * P) * (rec (snd t) * fst t)) ts))%Qc).
    { apply qsum_map_le. intros t T. destruct (H t T) as (A & B & C & HM & HZ). clearbody P R M. generalize dependent (fmeas (snd t)). generalize dependent (prec (snd t)). generalize dependent (rec (snd t)). generalize dependent (fst t).
      intros w A r C p B f HM HZ.
      assert (I : ((P + R) * (P + R) * f <= qz 2 * (R * R) * p + qz 2 * (P * P) * r)%Qc).
      { destruct (Qc_eq_dec (p + r) 0%Qc) as [Z|Z].
        - rewrite (HZ Z). assert (p = 0%Qc) by qc_lra. assert (r = 0%Qc) by qc_lra. subst. change (qz 2) with (1 + 1)%Qc. qc_lra.
        - assert (D : (0 < p + r)%Qc) by (assert (0 <= p + r)%Qc as D by qc_lra; apply Qcle_lt_or_eq in D; destruct D as [D|D]; [exact D|symmetry in D; contradiction]).
          apply Qcmult_lt_0_le_reg_r with (p + r)%Qc; [exact D|].
          replace ((P + R) * (P + R) * f * (p + r))%Qc with ((P + R) * (P + R) * (f * (p + r)))%Qc by ring. rewrite HM. change (qz 2) with (1 + 1)%Qc.
          assert (SQ : (0 <= (R * p - P * r) * (R * p - P * r))%Qc) by (clear; set (z := (R * p - P * r)%Qc); clearbody z; qc_nra).
          qc_nra. }
      set (u := (qz 2 * (R * R))%Qc) in *. set (v := (qz 2 * (P * P))%Qc) in *. set (d := ((P + R) * (P + R))%Qc) in *. clearbody u v d. clear -I A.
      replace (d * (f * w))%Qc with (d * f * w)%Qc by ring. replace (u * (p * w) + v * (r * w))%Qc with ((u * p + v * r) * w)%Qc by ring. apply Qcmult_le_compat_r; assumption. }
    rewrite qsum_map_plus, !qsum_map_scale in L. fold P R M in L. clearbody P R M. clear -L. replace (M * ((P + R) * (P + R)))%Qc with ((P + R) * (P + R) * M)%Qc by ring. replace (qz 2 * (R * R * P + P * P * R))%Qc with (qz 2 * (R * R) * P + qz 2 * (P * P) * R)%Qc by ring. exact L. }
  assert (G : (M * (P + R) <= qz 2 * P * R)%Qc).
  { destruct (Qc_eq_dec (P + R) 0%Qc) as [Z|Z].
    - rewrite Z. assert (P = 0%Qc) as -> by qc_lra. replace (qz 2 * 0 * R)%Qc with 0%Qc by ring. replace (M * 0)%Qc with 0%Qc by ring. apply Qcle_refl.
    - assert (D : (0 < P + R)%Qc) by (assert (0 <= P + R)%Qc as D by qc_lra; apply Qcle_lt_or_eq in D; destruct D as [D|D]; [exact D|symmetry in D; contradiction]).
      apply Qcmult_lt_0_le_reg_r with (P + R)%Qc; [exact D|]. replace (M * (P + R) * (P + R))%Qc with (M * ((P + R) * (P + R)))%Qc by ring. replace (qz 2 * P * R * (P + R))%Qc with (qz 2 * (R * R * P + P * P * R))%Qc by ring. exact K. }
  clearbody P R M. set (w := total_weight ts) in *. clearbody w. clear -G W' N.
  replace (M / w * (P / w + R / w))%Qc with (M * (P + R) * (/ w * / w))%Qc by (field; exact N). replace (qz 2 * (P / w) * (R / w))%Qc with (qz 2 * P * R * (/ w * / w))%Qc by (field; exact N).
  apply Qcmult_le_compat_r; [exact G|]. set (z := (/ w)%Qc). clearbody z. qc_nra.
Qed.

Lemma C196_refused_pf : forall score_multi s e, In e (inputs s) ->
  (se_labels e = None \/ se_predictions e = None \/ se_predictions e = Some [] \/ se_weights e = [] \/
   exists v w, In v (se_weights e) /\ In w (se_weights e) /\ v <> w) ->
  is_ok (outcome (rouge_combiner score_multi) s) = false.
Proof.
  intros score_multi s e I H. unfold rouge_combiner. apply (res_run_refused _ _ _ _ e); [|exact I]. intros a. unfold rouge_add.
  destruct (se_labels e) as [labels|] eqn:L; [|reflexivity]. destruct (se_predictions e) as [ys|] eqn:P; [|reflexivity].
  destruct H as [H|[H|[H|[H|(v & w & V & W & D)]]]]; try discriminate.
  - injection H as ->. destruct (single_weight (se_weights e)) as [[|w ws]|]; reflexivity.
  - rewrite H. reflexivity.
  - destruct (se_weights e) as [|x [|y ws]] eqn:E; [destruct V| |].
    + destruct V as [<-|[]], W as [<-|[]]. contradiction.
    + unfold single_weight. destruct (forallb _ _) eqn:FB; [|reflexivity]. exfalso. rewrite forallb_forall in FB. apply D. apply FB in V, W. apply Qc_eqb_eq in V, W. congruence.
Qed.

(** The tag that orders the examples. *)

Definition tag_of {V} (power : Qc -> Qc -> Qc) (weighted : bool) (e : sampled V) : Qc :=
  if weighted then
    match sa_weight e with
    | Some w => if Qc_eq_dec w 0%Qc then 0%Qc else power (sa_random e) (1 / w)%Qc
    | None => 0%Qc
    end
  else sa_random e.

(** What is needed of an example. *)

Definition samplable {V} (weighted : bool) (e : sampled V) : Prop :=
  sa_value e <> None /\ (weighted = true -> sa_weight e <> None).

Definition descending {V} (power : Qc -> Qc -> Qc) (weighted : bool) : list (sampled V) -> Prop :=
  StronglySorted (fun a b => (tag_of power weighted b <= tag_of power weighted a)%Qc).

(** [chosen] are [n] examples (all, if there are fewer) with the greatest tags. *)

Definition chosen_of {V} (power : Qc -> Qc -> Qc) (weighted : bool) (n : nat) (examples chosen others : list (sampled V)) : Prop :=
  Permutation examples (chosen ++ others) /\ length chosen = Nat.min n (length examples) /\ descending power weighted chosen /\
  forall a b, In a chosen -> In b others -> (tag_of power weighted b <= tag_of power weighted a)%Qc.

Definition desc {V} : list (Qc * V) -> Prop := StronglySorted (fun a b => (fst b <= fst a)%Qc).

Definition top {V} (n : nat) (h M : list (Qc * V)) : Prop :=
  exists rest, Permutation M (h ++ rest) /\ length h = Nat.min n (length M) /\ desc h /\ forall x y, In x rest -> In y h -> (fst x <= fst y)%Qc.

Lemma push_perm {V} (x : Qc * V) h : Permutation (x :: h) (push x h).
Proof. induction h as [|y t IH]; cbn [push]; [reflexivity|]. destruct (Qc_ltb (fst y) (fst x)); [reflexivity|]. rewrite perm_swap. apply perm_skip. exact IH. Qed.

Lemma push_desc {V} (x : Qc * V) h : desc h -> desc (push x h).
Proof.
  unfold desc. induction h as [|y t IH]; intros D; cbn [push]; [constructor; constructor|]. inversion D as [|? ? D' F]; subst. destruct (Qc_ltb (fst y) (fst x)) eqn:E.
  - apply Qc_ltb_lt in E. constructor; [exact D|]. constructor; [qc_lra|]. eapply Forall_impl; [|exact F]. intros z Z. cbn beta in Z. qc_lra.
  - constructor; [apply IH; exact D'|]. rewrite Forall_forall in F |- *. intros z Z. apply (Permutation_in _ (Permutation_sym (push_perm x t))) in Z. destruct Z as [<-|Z]; [|apply F; exact Z].
    apply Qcnot_lt_le. intros L. apply Qc_ltb_lt in L. congruence.
Qed.

Lemma desc_split {V} n : forall (h : list (Qc * V)), desc h -> desc (firstn n h) /\ forall x y, In x (skipn n h) -> In y (firstn n h) -> (fst x <= fst y)%Qc.
Proof.
  unfold desc. induction n as [|n IH]; intros h D; [split; [constructor|intros x y _ []]|]. destruct h as [|z h]; [split; [constructor|intros x y []]|]. inversion D as [|? ? D' F]; subst. cbn [firstn skipn].
  destruct (IH h D') as [A B]. rewrite Forall_forall in F. split.
  - constructor; [exact A|]. apply Forall_forall. intros y Y. apply F. rewrite <- (firstn_skipn n h). apply in_app_iff. left. exact Y.
  - intros x y X [<-|Y]; [|apply B; assumption]. apply F. rewrite <- (firstn_skipn n h). apply in_app_iff. right. exact X.
Qed.

Lemma top_nil {V} n : @top V n [] [].
Proof. exists []. split; [reflexivity|]. split; [cbn [length]; lia|]. split; [constructor|intros x y []]. Qed.

Lemma top_step {V} n (h M : list (Qc * V)) x : top n h M -> top n (top_add n h x) (M ++ [x]).
Proof.
  intros (rest & P & L & D & R). unfold top_add. pose proof (push_perm x h) as PP. pose proof (push_desc x h D) as PD. set (h' := push x h) in *. clearbody h'.
  destruct (desc_split n h' PD) as [D1 D2]. exists (skipn n h' ++ rest).
  assert (LM : length M = length h + length rest) by (rewrite (Permutation_length P), app_length; reflexivity).
  assert (LH : length h' = S (length h)) by (rewrite <- (Permutation_length PP); reflexivity).
  split; [|split; [|split]].
  - rewrite app_assoc, firstn_skipn, <- PP, P. cbn [app]. symmetry. apply Permutation_cons_append.
  - rewrite firstn_length, app_length. cbn [length]. lia.
  - exact D1.
  - intros a b A B. apply in_app_iff in A. destruct A as [A|A]; [apply D2; assumption|].
    destruct (Nat.le_gt_cases n (length M)) as [NM|NM]; [|exfalso; destruct rest; [destruct A|cbn [length] in LM; lia]].
    assert (SK : exists z, skipn n h' = [z]).
    { assert (LS : length (skipn n h') = 1) by (rewrite skipn_length; lia). destruct (skipn n h') as [|z [|]]; cbn [length] in LS; try discriminate. exists z. reflexivity. }
    destruct SK as (z & SK). rewrite SK in D2. assert (EH : h' = firstn n h' ++ [z]) by (rewrite <- SK, firstn_skipn; reflexivity).
    assert (Z : In z (x :: h)) by (apply (Permutation_in _ (Permutation_sym PP)); rewrite EH; apply in_app_iff; right; left; reflexivity).
    assert (K : In z h \/ Permutation h (firstn n h')).
    { destruct Z as [<-|Z]; [|left; exact Z]. right. rewrite EH in PP. apply Permutation_cons_app_inv in PP. rewrite app_nil_r in PP. exact PP. }
    destruct K as [K|K].
    + apply Qcle_trans with (fst z); [apply R; assumption|]. apply D2; [left; reflexivity|exact B].
    + apply R; [exact A|]. apply (Permutation_in _ (Permutation_sym K)). exact B.
Qed.

Lemma top_fold {V} n (b : list (Qc * V)) : forall h M, top n h M -> top n (fold_left (top_add n) b h) (M ++ b).
Proof.
  induction b as [|x b IH]; intros h M T; cbn [fold_left]; [rewrite app_nil_r; exact T|].
  replace (M ++ x :: b) with ((M ++ [x]) ++ b) by (rewrite <- app_assoc; reflexivity). apply IH, top_step, T.
Qed.

Lemma filter_perm {A} (p : A -> bool) l l' : Permutation l l' -> Permutation (filter p l) (filter p l').
Proof. induction 1 as [|x l l' P IH|x y l|]; cbn [filter]; [reflexivity|destruct (p x); auto|destruct (p x), (p y); auto; apply perm_swap|etransitivity; eauto]. Qed.

Lemma filter_full {A} (p : A -> bool) l : length l <= length (filter p l) -> forall x, In x l -> p x = true.
Proof.
  induction l as [|y l IH]; intros H x I; [destruct I|]. cbn [filter] in H. assert (B : length (filter p l) <= length l) by (clear; induction l as [|z l IH]; cbn [filter]; [lia|destruct (p z); cbn [length]; lia]).
  destruct (p y) eqn:E; cbn [length] in H; [|lia]. destruct I as [<-|I]; [exact E|apply IH; [lia|exact I]].
Qed.

Lemma filter_none {A} (p : A -> bool) l : (forall x, In x l -> p x = false) -> filter p l = [].
Proof. induction l as [|x l IH]; intros H; [reflexivity|]. cbn [filter]. rewrite (H x (or_introl eq_refl)). apply IH. intros; apply H; right; assumption. Qed.

Lemma filter_whole {A} (p : A -> bool) l : (forall x, In x l -> p x = true) -> filter p l = l.
Proof. induction l as [|x l IH]; intros H; [reflexivity|]. cbn [filter]. rewrite (H x (or_introl eq_refl)). f_equal. apply IH. intros; apply H; right; assumption. Qed.

Lemma top_merge {V} n (a b : list (Qc * V)) M1 M2 : top n a M1 -> top n b M2 -> top n (fold_left (top_add n) b a) (M1 ++ M2).
Proof.
  intros A (rest2 & P2 & L2 & D2 & R2). destruct (top_fold n b a M1 A) as (rest & P & L & D & R). set (h := fold_left (top_add n) b a) in *. clearbody h.
  assert (LM : length M2 = length b + length rest2) by (rewrite (Permutation_length P2), app_length; reflexivity).
  exists (rest ++ rest2). split; [|split; [|split]].
  - rewrite P2, app_assoc, P, <- app_assoc. reflexivity.
  - rewrite L, !app_length. lia.
  - exact D.
  - intros x y X Y. apply in_app_iff in X. destruct X as [X|X]; [apply R; assumption|].
    assert (LB : length b = n) by (destruct rest2 as [|z rest2]; [destruct X|cbn [length] in LM; lia]).
    apply Qcnot_lt_le. intros LT. set (p := fun z : Qc * V => negb (Qc_ltb (fst z) (fst x))).
    assert (FP : length (filter p (M1 ++ b)) = length (filter p h) + length (filter p rest)) by (rewrite (Permutation_length (filter_perm p _ _ P)), filter_app, app_length; reflexivity).
    rewrite filter_app, app_length in FP.
    rewrite (filter_whole p b) in FP; [|intros z Z; unfold p; destruct (Qc_ltb (fst z) (fst x)) eqn:E; [|reflexivity]; apply Qc_ltb_lt in E; specialize (R2 x z X Z); exfalso; qc_lra].
    rewrite (filter_none p rest) in FP; [|intros z Z; unfold p; destruct (Qc_ltb (fst z) (fst x)) eqn:E; [reflexivity|]; exfalso; specialize (R z y Z Y); assert (fst z < fst x)%Qc as E' by qc_lra; apply Qc_ltb_lt in E'; congruence].
    cbn [length] in FP. assert (PY : p y = true) by (apply (filter_full p h); [lia|exact Y]). unfold p in PY. apply Qc_ltb_lt in LT. rewrite LT in PY. discriminate.
Qed.

Lemma tag_ok {V} power weighted (e : sampled V) : samplable weighted e -> random_tag power weighted e = Ok (tag_of power weighted e).
Proof.
  intros [_ W]. unfold random_tag, tag_of. destruct weighted; [|reflexivity]. destruct (sa_weight e) as [w|]; [|exfalso; apply W; reflexivity].
  destruct (Qc_eq_dec w 0%Qc) as [->|N]; [rewrite Qc_eqb_refl; reflexivity|]. destruct (Qc_eqb w 0%Qc) eqn:E; [apply Qc_eqb_eq in E; contradiction|reflexivity].
Qed.

Lemma sample_run {V} power n weighted keys (s : sched (sampled V)) :
  (forall e, In e (inputs s) -> samplable weighted e) ->
  exists chosen others, chosen_of power weighted n (inputs s) chosen others /\
    exists heap, run (sample_combiner power n weighted keys) s = Ok heap /\ map (fun x => Some (snd x)) heap = map sa_value chosen.
Proof.
  intros H. assert (G : Forall (samplable weighted) (inputs s)) by (apply Forall_forall; exact H).
  destruct (res_rel_run [] (sample_add power n weighted) (fun a b => fold_left (top_add n) b a) (fun heap => Ok (map (fun k : metric_key => (k, map snd heap)) keys)) (samplable weighted)
    (fun a es => exists M, Forall2 (fun (e : sampled V) x => fst x = tag_of power weighted e /\ Some (snd x) = sa_value e) es M /\ top n a M)) with (s := s) as (heap & E & M & F & T); [| | |exact G|].
  - exists []. split; [constructor|apply top_nil].
  - intros a es e (M & F & T) S. unfold sample_add. pose proof S as S'. destruct S' as [SV _]. destruct (sa_value e) as [v|] eqn:EV; [|contradiction]. rewrite (tag_ok power weighted e S). cbn [bind].
    eexists. split; [reflexivity|]. exists (M ++ [(tag_of power weighted e, v)]). split; [apply Forall2_app; [exact F|]; constructor; [|constructor]; split; [reflexivity|]; symmetry; exact EV|]. apply top_step. exact T.
  - intros a b l1 l2 (M1 & F1 & T1) (M2 & F2 & T2). exists (M1 ++ M2). split; [apply Forall2_app; assumption|]. apply top_merge; assumption.
  - destruct T as (rest & P & L & D & R).
    assert (F' : Forall2 (fun x (e : sampled V) => fst x = tag_of power weighted e /\ Some (snd x) = sa_value e) M (inputs s)) by (clear -F; induction F; constructor; auto).
    destruct (Forall2_perm _ _ _ P _ F') as (es & PE & FE). apply Forall2_app_inv_l in FE. destruct FE as (chosen & others & FC & FO & ->).
    exists chosen, others. split.
    + split; [exact PE|]. split; [|split].
      * rewrite <- (@Forall2_length _ _ _ _ _ FC), L, (@Forall2_length _ _ _ _ _ F). reflexivity.
      * clear -FC D. unfold desc, descending in *. induction FC as [|x e h es [EX _] FC IH]; [constructor|]. inversion D as [|? ? D' F]; subst. constructor; [apply IH; exact D'|].
        clear -EX F FC. induction FC as [|y e' h es [EY _] FC IH]; constructor; inversion F; subst; [rewrite <- EX, <- EY; assumption|apply IH; assumption].
      * intros a b A B. destruct (Forall2_In_r _ _ _ _ FC A) as (y & Y & EY & _). destruct (Forall2_In_r _ _ _ _ FO B) as (x & X & EX & _). rewrite <- EY, <- EX. apply R; assumption.
    + exists heap. split; [exact E|]. clear -FC. induction FC as [|x e h es [_ EV] FC IH]; [reflexivity|]. cbn [map]. rewrite EV, IH. reflexivity.
Qed.

Lemma C197_greatest_tags_pf : forall V power n weighted keys (s : sched (sampled V)),
  (forall e, In e (inputs s) -> samplable weighted e) ->
  exists chosen others values, chosen_of power weighted n (inputs s) chosen others /\
    map Some values = map sa_value chosen /\
    outcome (sample_combiner power n weighted keys) s = Ok (map (fun k => (k, values)) keys).
Proof.
  intros V power n weighted keys s H. destruct (sample_run power n weighted keys s H) as (chosen & others & C & heap & E & M).
  exists chosen, others, (map snd heap). split; [exact C|]. split; [rewrite map_map; exact M|]. unfold outcome. rewrite E. reflexivity.
Qed.

Lemma sorted_unique {A} (f : A -> Qc) (h h' : list A) : Permutation h h' -> NoDup (map f h) ->
  StronglySorted (fun a b => (f b <= f a)%Qc) h -> StronglySorted (fun a b => (f b <= f a)%Qc) h' -> h = h'.
Proof.
  revert h'. induction h as [|x h IH]; intros h' P N D D'; [apply Permutation_nil in P; symmetry; exact P|].
  destruct h' as [|y h']; [symmetry in P; apply Permutation_nil in P; discriminate|]. cbn [map] in N. inversion N as [|? ? NI N']; subst. inversion D as [|? ? DH F]; subst. inversion D' as [|? ? DH' F']; subst.
  assert (E : x = y).
  { assert (X : In x (y :: h')) by (apply (Permutation_in _ P); left; reflexivity). assert (Y : In y (x :: h)) by (apply (Permutation_in _ (Permutation_sym P)); left; reflexivity).
    destruct X as [X|X]; [symmetry; exact X|]. destruct Y as [Y|Y]; [exact Y|]. exfalso. rewrite Forall_forall in F, F'. specialize (F y Y). specialize (F' x X). cbn beta in F, F'.
    apply NI. apply in_map_iff. exists y. split; [apply Qcle_antisym; assumption|exact Y]. }
  subst y. f_equal. apply Permutation_cons_inv in P. apply IH; assumption.
Qed.

Lemma NoDup_of_map {A B} (f : A -> B) l : NoDup (map f l) -> NoDup l.
Proof. induction l as [|x l IH]; intros N; [constructor|]. inversion N; subst. constructor; [|auto]. intros I. apply H1. apply in_map. exact I. Qed.

Lemma NoDup_app_l {A} (l k : list A) : NoDup (l ++ k) -> NoDup l.
Proof. induction l as [|x l IH]; intros N; [constructor|]. cbn [app] in N. inversion N; subst. constructor; [|auto]. intros I. apply H1. apply in_app_iff. left. exact I. Qed.

Lemma NoDup_map_in {A B} (f : A -> B) l x y : NoDup (map f l) -> In x l -> In y l -> f x = f y -> x = y.
Proof.
  induction l as [|z l IH]; intros N X Y E; [destruct X|]. cbn [map] in N. inversion N; subst. destruct X as [->|X], Y as [->|Y]; auto.
  - exfalso. apply H1. rewrite E. apply in_map. exact Y.
  - exfalso. apply H1. rewrite <- E. apply in_map. exact X.
Qed.

Lemma chosen_unique {V} power weighted n (es es' c c' o o' : list (sampled V)) :
  Permutation es es' -> NoDup (map (tag_of power weighted) es) -> chosen_of power weighted n es c o -> chosen_of power weighted n es' c' o' -> c = c'.
Proof.
  intros P N (P1 & L1 & D1 & R1) (P2 & L2 & D2 & R2).
  assert (N1 : NoDup (map (tag_of power weighted) (c ++ o))) by (apply (Permutation_NoDup (Permutation_map _ P1)); exact N).
  assert (P12 : Permutation (c ++ o) (c' ++ o')) by (rewrite <- P1, P, P2; reflexivity).
  assert (N2 : NoDup (map (tag_of power weighted) (c' ++ o'))) by (apply (Permutation_NoDup (Permutation_map _ P12)); exact N1).
  assert (NC : NoDup (map (tag_of power weighted) c)) by (rewrite map_app in N1; apply NoDup_app_l in N1; exact N1).
  assert (NC' : NoDup (map (tag_of power weighted) c')) by (rewrite map_app in N2; apply NoDup_app_l in N2; exact N2).
  assert (L : length c = length c') by (rewrite L1, L2, (Permutation_length P); reflexivity).
  apply (sorted_unique (tag_of power weighted)); [|exact NC|exact D1|exact D2].
  assert (HALF : forall c o c' o' : list Qc, (forall t, In t (c ++ o) <-> In t (c' ++ o')) -> NoDup c' -> length c = length c' ->
    (forall a b, In a c -> In b o -> (b <= a)%Qc) -> (forall a b, In a c' -> In b o' -> (b <= a)%Qc) -> incl c c').
  { clear. intros c o c' o' P NC' L R R' x X. destruct (in_dec Qc_eq_dec x c') as [I|I]; [exact I|].
    assert (X' : In x o') by (assert (In x (c' ++ o')) as K by (apply P; apply in_app_iff; left; exact X); apply in_app_iff in K; destruct K; [contradiction|assumption]).
    apply (@NoDup_length_incl _ c' c NC'); [lia| |exact X]. intros u U. destruct (in_dec Qc_eq_dec u c) as [J|J]; [exact J|]. exfalso.
    assert (U' : In u o) by (assert (In u (c ++ o)) as K by (apply P; apply in_app_iff; left; exact U); apply in_app_iff in K; destruct K; [contradiction|assumption]).
    specialize (R x u X U'). specialize (R' u x U X'). apply I. replace x with u by (apply Qcle_antisym; assumption). exact U. }
  assert (T : forall a b : list (sampled V), (forall x y, In x a -> In y b -> (tag_of power weighted y <= tag_of power weighted x)%Qc) ->
    forall x y, In x (map (tag_of power weighted) a) -> In y (map (tag_of power weighted) b) -> (y <= x)%Qc).
  { intros a b K x y X Y. apply in_map_iff in X, Y. destruct X as (e & <- & X), Y as (f & <- & Y). apply K; assumption. }
  assert (E : forall t, In t (map (tag_of power weighted) c ++ map (tag_of power weighted) o) <-> In t (map (tag_of power weighted) c' ++ map (tag_of power weighted) o')).
  { intros t. rewrite <- !map_app. split; apply Permutation_in; [|symmetry]; apply Permutation_map; exact P12. }
  apply NoDup_Permutation; [apply (NoDup_of_map _ _ NC)|apply (NoDup_of_map _ _ NC')|].
  assert (I1 : incl (map (tag_of power weighted) c) (map (tag_of power weighted) c')) by (apply (HALF _ _ _ _ E NC'); [rewrite !map_length; exact L|apply T; exact R1|apply T; exact R2]).
  assert (I2 : incl (map (tag_of power weighted) c') (map (tag_of power weighted) c)) by (apply (HALF _ _ _ _ (fun t => iff_sym (E t)) NC); [rewrite !map_length; symmetry; exact L|apply T; exact R2|apply T; exact R1]).
  intros x. split; intros X.
  - specialize (I1 _ (in_map _ _ _ X)). apply in_map_iff in I1. destruct I1 as (y & EY & Y). replace x with y; [exact Y|].
    apply (NoDup_map_in (tag_of power weighted) (c' ++ o')); [exact N2|apply in_app_iff; left; exact Y|apply (Permutation_in _ P12); apply in_app_iff; left; exact X|exact EY].
  - specialize (I2 _ (in_map _ _ _ X)). apply in_map_iff in I2. destruct I2 as (y & EY & Y). replace x with y; [exact Y|].
    apply (NoDup_map_in (tag_of power weighted) (c ++ o)); [exact N1|apply in_app_iff; left; exact Y|apply (Permutation_in _ (Permutation_sym P12)); apply in_app_iff; left; exact X|exact EY].
Qed.

Lemma C197_any_bundles_pf : forall V power n weighted keys (s1 s2 : sched (sampled V)),
  (forall e, In e (inputs s1) -> samplable weighted e) -> NoDup (map (tag_of power weighted) (inputs s1)) -> Permutation (inputs s1) (inputs s2) ->
  outcome (sample_combiner power n weighted keys) s1 = outcome (sample_combiner power n weighted keys) s2.
Proof.
  intros V power n weighted keys s1 s2 H N P.
  destruct (C197_greatest_tags_pf V power n weighted keys s1 H) as (c & o & vs & C & M & ->).
  destruct (C197_greatest_tags_pf V power n weighted keys s2) as (c' & o' & vs' & C' & M' & ->); [intros e I; apply H; apply (Permutation_in _ (Permutation_sym P)); exact I|].
  rewrite <- (chosen_unique power weighted n _ _ _ _ _ _ P N C C') in M'. rewrite <- M' in M.
  assert (E : vs = vs'); [|rewrite E; reflexivity]. clear -M. revert vs' M. induction vs as [|v vs IH]; intros [|v' vs'] M; try discriminate; [reflexivity|]. injection M as -> M. f_equal. apply IH. exact M.
Qed.

Lemma C198_refused_pf : forall V power n weighted keys (s : sched (sampled V)) e, In e (inputs s) ->
  (sa_value e = None \/ weighted = true /\ sa_weight e = None) ->
  is_ok (outcome (sample_combiner power n weighted keys) s) = false.
Proof.
  intros V power n weighted keys s e I H. unfold sample_combiner. apply (res_run_refused _ _ _ _ e); [|exact I]. intros a. unfold sample_add.
  destruct H as [->|[-> W]]; [reflexivity|]. destruct (sa_value e); [|reflexivity]. unfold random_tag. rewrite W. reflexivity.
Qed.

Lemma C199_weight_zero_refuted_pf : exists power (e e' : sampled string) k,
  (forall r x, 0 < r -> 0 < power r x)%Qc /\ (0 < sa_random e)%Qc /\ (0 < sa_random e')%Qc /\ sa_weight e = Some 0%Qc /\ sa_weight e' = Some 1%Qc /\
  sa_value e = Some "never" /\
  outcome (sample_combiner power 2 true [k]) (Bundle [e; e']) = Ok [(k, ["once"; "never"])].
Proof.
  exists (fun r x => r), (Sampled (Q2Qc (1 # 2)) (Some "never") (Some 0%Qc)), (Sampled (Q2Qc (1 # 2)) (Some "once") (Some 1%Qc)), (text_key "s").
  split; [intros; assumption|]. repeat (split; [first [reflexivity|vm_compute; reflexivity]|]). vm_compute. reflexivity.
Qed.

Lemma C199_last_partial_pf : forall V power n keys (s : sched (sampled V)),
  (forall e, In e (inputs s) -> sa_value e <> None /\ (0 < sa_random e)%Qc /\ exists w, sa_weight e = Some w /\ (0 <= w)%Qc) ->
  (forall r x, 0 < r -> 0 < power r x)%Qc ->
  exists chosen others values, chosen_of power true n (inputs s) chosen others /\ map Some values = map sa_value chosen /\
    outcome (sample_combiner power n true keys) s = Ok (map (fun k => (k, values)) keys) /\
    forall e e', In e chosen -> sa_weight e = Some 0%Qc -> In e' others -> sa_weight e' = Some 0%Qc.
Proof.
  intros V power n keys s H PW. destruct (C197_greatest_tags_pf V power n true keys s) as (c & o & vs & C & M & E).
  { intros e I. destruct (H e I) as (A & _ & w & W & _). split; [exact A|]. intros _. rewrite W. discriminate. }
  exists c, o, vs. split; [exact C|]. split; [exact M|]. split; [exact E|]. intros e e' I Z J. destruct C as (P & _ & _ & R). specialize (R e e' I J).
  destruct (H e') as (_ & PR & w & W & W0); [apply (Permutation_in _ (Permutation_sym P)); apply in_app_iff; right; exact J|].
  unfold tag_of in R. rewrite Z, W in R. destruct (Qc_eq_dec 0%Qc 0%Qc) as [_|B]; [|contradiction]. destruct (Qc_eq_dec w 0%Qc) as [->|NW]; [exact W|].
  exfalso. specialize (PW (sa_random e') (1 / w)%Qc PR). exact (Qclt_not_le _ _ PW R).
Qed.
