(* Proofs of the theorems restated in Specs_Properties.v. *)
From Coq Require Import String Ascii Sorting.Sorted.
From Verif Require Import Base BaseFacts Beam BeamFacts Keys_Model Ranking_Model Ranking_Main Keras_Main Classes_Main Aggregation_Model Config_Model Specs_Model.
Local Open Scope string_scope.
Local Open Scope list_scope.

(* C239 - C246: the config of a metric, the metric of a config, specs from metrics, default specs. *)

Definition letters : list ascii := list_ascii_of_string "abcdefghijklmnopqrstuvwxyz".

Definition capitals : list ascii := list_ascii_of_string "ABCDEFGHIJKLMNOPQRSTUVWXYZ".

Definition digits : list ascii := list_ascii_of_string "0123456789".

(** A capital followed by small letters and digits, and the same in small letters *)

Definition word (up low : list ascii) : Prop :=
  exists i t, (i < 26)%nat /\ up = nth i capitals "000"%char :: t /\ low = nth i letters "000"%char :: t /\
    t <> [] /\ (forall c, In c t -> In c letters \/ In c digits).

Definition ends_in_letter (w : list ascii) : Prop := exists t c, w = t ++ [c] /\ In c letters.

Lemma letter_class c : In c letters -> is_lower c = true /\ is_upper c = false /\ to_lower c = c /\ c <> "_"%char.
Proof.
  assert (H : forallb (fun c => is_lower c && negb (is_upper c) && Ascii.eqb (to_lower c) c && negb (Ascii.eqb c "_")) letters = true) by reflexivity.
  intros I. rewrite forallb_forall in H. specialize (H c I). rewrite !andb_true_iff, !negb_true_iff in H. destruct H as [[[A B] C] D].
  repeat split; auto; [apply Ascii.eqb_eq, C|apply Ascii.eqb_neq, D].
Qed.

Lemma digit_class c : In c digits -> is_lower c = false /\ is_digit c = true /\ is_upper c = false /\ to_lower c = c /\ c <> "_"%char.
Proof.
  assert (H : forallb (fun c => negb (is_lower c) && is_digit c && negb (is_upper c) && Ascii.eqb (to_lower c) c && negb (Ascii.eqb c "_")) digits = true) by reflexivity.
  intros I. rewrite forallb_forall in H. specialize (H c I). rewrite !andb_true_iff, !negb_true_iff in H. destruct H as [[[[A B] C] D] E].
  repeat split; auto; [apply Ascii.eqb_eq, D|apply Ascii.eqb_neq, E].
Qed.

Lemma capital_class i : (i < 26)%nat ->
  let c := nth i capitals "000"%char in let d := nth i letters "000"%char in
  is_upper c = true /\ is_lower c = false /\ lower_or_digit c = false /\ to_lower c = d /\ to_upper d = c /\ In d letters /\ c <> "010"%char /\ c <> "_"%char.
Proof.
  intros H. assert (D : In (nth i letters "000"%char) letters) by (apply nth_In; exact H).
  do 26 (destruct i as [|i]; [cbn; repeat split; try reflexivity; try discriminate; exact D|]). lia.
Qed.

Lemma lod_class c : In c letters \/ In c digits -> lower_or_digit c = true /\ is_upper c = false /\ to_lower c = c /\ c <> "_"%char /\ c <> "010"%char.
Proof.
  intros [I|I].
  - destruct (letter_class c I) as (A & B & C & D). unfold lower_or_digit. rewrite A. repeat split; auto. intros ->. discriminate A.
  - destruct (digit_class c I) as (A & B & C & D & E). unfold lower_or_digit. rewrite A, B. repeat split; auto. intros ->. discriminate B.
Qed.

(** A text of words with underscores between some of them *)

Fixpoint weave (l : list (bool * list ascii)) : list ascii :=
  match l with [] => [] | (u, w) :: r => (if u then "_"%char :: w else w) ++ weave r end.

Definition small (t : list ascii) : Prop := forall c, In c t -> In c letters \/ In c digits.

Lemma sub_words_copy t : forall r, small t -> sub_words true (t ++ r) = t ++ sub_words true r.
Proof.
  induction t as [|c t IH]; intros r S; [reflexivity|]. cbn [app sub_words]. destruct (lod_class c (S c (or_introl eq_refl))) as (A & _).
  rewrite A. cbn [andb]. rewrite IH; [reflexivity|]. intros d I. apply S. right. exact I.
Qed.

Lemma sub_words_step copying c r : copying && lower_or_digit c = false ->
  (forall c2 c3 r3, r = c2 :: c3 :: r3 -> is_upper c2 && lower_or_digit c3 = false) ->
  sub_words copying (c :: r) = c :: sub_words false r.
Proof.
  intros F N. cbn [sub_words]. rewrite F. destruct r as [|c2 [|c3 r3]]; [reflexivity|reflexivity|].
  rewrite <- andb_assoc, (N c2 c3 r3 eq_refl), andb_false_r. reflexivity.
Qed.

Lemma sub_words_match copying c c2 c3 r3 : copying && lower_or_digit c = false -> Ascii.eqb c "010" = false -> is_upper c2 = true -> lower_or_digit c3 = true ->
  sub_words copying (c :: c2 :: c3 :: r3) = c :: "_"%char :: c2 :: sub_words true (c3 :: r3).
Proof.
  intros F N U L. remember (c3 :: r3) as r eqn:R. cbn [sub_words]. rewrite F, R, N, U, L. reflexivity.
Qed.

Lemma sub_words_words ups lows : Forall2 word ups lows ->
  (forall t, t <> [] -> small t -> exists us, length us = length ups /\ sub_words false (t ++ concat ups) = t ++ weave (combine us ups)) /\
  (exists us, length us = length ups /\ sub_words true (concat ups) = weave (combine us ups)).
Proof.
  induction 1 as [|up low ups lows W F IH]; [split; [intros t N S|]; exists []; split; try reflexivity|].
  { cbn [concat combine weave]. rewrite !app_nil_r. clear N. induction t as [|c t IH]; [reflexivity|].
    rewrite sub_words_step; [f_equal; apply IH; intros d I; apply S; right; exact I|reflexivity|].
    intros c2 c3 r3 ->. destruct (lod_class c2 (S c2 (or_intror (or_introl eq_refl)))) as (_ & U & _). rewrite U. reflexivity. }
  destruct W as (i & w & Hi & -> & -> & Nw & Sw). destruct IH as [IH1 (us2 & L2 & IH2)].
  destruct (capital_class i Hi) as (U & NL & NLD & _ & _ & _ & NN & _).
  set (C := nth i capitals "000"%char) in *.
  assert (LW : exists c w', w = c :: w' /\ lower_or_digit c = true /\ is_upper c = false).
  { destruct w as [|c w']; [congruence|]. exists c, w'. destruct (lod_class c (Sw c (or_introl eq_refl))) as (A & B & _). auto. }
  split.
  - intros t Nt St. destruct (IH1 w Nw Sw) as (us & L & E).
    exists (true :: us2). split; [cbn [length]; lia|]. cbn [concat combine weave].
    clear E. cbn [app]. clear IH1 us L. revert Nt St. induction t as [|c t IHt]; intros Nt St; [congruence|].
    destruct t as [|c' t'].
    + destruct LW as (d & w' & -> & LD & ND). cbn [app].
      destruct (lod_class c (St c (or_introl eq_refl))) as (_ & _ & _ & _ & NLc).
      assert (G : Ascii.eqb c "010" = false) by (apply Ascii.eqb_neq, NLc).
      rewrite sub_words_match; [|reflexivity|exact G|exact U|exact LD]. change (d :: w' ++ concat ups) with ((d :: w') ++ concat ups).
      rewrite (sub_words_copy (d :: w') (concat ups) Sw), IH2. reflexivity.
    + change ((c :: c' :: t') ++ C :: w ++ concat ups) with (c :: ((c' :: t') ++ C :: w ++ concat ups)).
      rewrite sub_words_step.
      * rewrite IHt; [reflexivity|discriminate|intros d I; apply St; right; exact I].
      * reflexivity.
      * intros c2 c3 r3 E. cbn [app] in E. injection E as <- _. destruct (lod_class c' (St c' (or_intror (or_introl eq_refl)))) as (_ & B & _). rewrite B. reflexivity.
  - destruct (IH1 w Nw Sw) as (us & L & E). exists (false :: us). split; [cbn [length]; lia|]. cbn [concat combine weave app].
    rewrite sub_words_step.
    + rewrite E. reflexivity.
    + cbn [andb]. exact NLD.
    + intros c2 c3 r3 E2. destruct LW as (d & w' & -> & LD & ND). cbn [app] in E2. injection E2 as <- _. rewrite ND. reflexivity.
Qed.

Lemma sub_humps_cons c r : (forall c2 r2, r = c2 :: r2 -> is_lower c && is_upper c2 = false) -> sub_humps (c :: r) = c :: sub_humps r.
Proof.
  intros N. cbn [sub_humps]. destruct r as [|c2 r2]; [reflexivity|]. rewrite (N c2 r2 eq_refl). reflexivity.
Qed.

Lemma sub_humps_small t r : small t -> (r = [] \/ exists c r', r = c :: r' /\ is_upper c = false) -> sub_humps (t ++ r) = t ++ sub_humps r.
Proof.
  induction t as [|c t IH]; intros S R; [reflexivity|].
  change ((c :: t) ++ r) with (c :: (t ++ r)). rewrite sub_humps_cons.
  - rewrite IH; [reflexivity|intros d I; apply S; right; exact I|exact R].
  - intros c2 r2 E. destruct t as [|d t].
    + cbn [app] in E. destruct R as [->|(c' & r' & -> & U)]; [discriminate E|]. injection E as -> ->. rewrite U. apply andb_false_r.
    + cbn [app] in E. injection E as <- _. destruct (lod_class d (S d (or_intror (or_introl eq_refl)))) as (_ & B & _). rewrite B. apply andb_false_r.
Qed.

Lemma sub_humps_up t c C r : small t -> In c letters -> is_upper C = true -> sub_humps (t ++ c :: C :: r) = t ++ c :: "_"%char :: C :: sub_humps r.
Proof.
  intros S I U. induction t as [|d t IH].
  - cbn [app sub_humps]. destruct (letter_class c I) as (A & _). rewrite A, U. reflexivity.
  - change ((d :: t) ++ c :: C :: r) with (d :: (t ++ c :: C :: r)). rewrite sub_humps_cons.
    + rewrite IH; [reflexivity|intros x J; apply S; right; exact J].
    + intros c2 r2 E. destruct t as [|d' t].
      * cbn [app] in E. injection E as <- _. destruct (letter_class c I) as (_ & B & _). rewrite B. apply andb_false_r.
      * cbn [app] in E. injection E as <- _. destruct (lod_class d' (S d' (or_intror (or_introl eq_refl)))) as (_ & B & _). rewrite B. apply andb_false_r.
Qed.

Lemma sub_humps_weave ups lows : Forall2 word ups lows -> Forall ends_in_letter ups ->
  forall us, length us = length ups -> forall t, small t -> ends_in_letter t ->
    sub_humps (t ++ weave (combine us ups)) = t ++ weave (map (fun w => (true, w)) ups).
Proof.
  induction 1 as [|up low ups lows W F IH]; intros EL us L t S ET.
  { destruct us; [|discriminate]. cbn [combine weave map]. rewrite sub_humps_small; [|exact S|left; reflexivity]. reflexivity. }
  destruct us as [|u us]; [discriminate|]. inversion EL as [|? ? E1 E2]; subst.
  destruct W as (i & w & Hi & -> & -> & Nw & Sw). destruct (capital_class i Hi) as (U & NL & _).
  set (C := nth i capitals "000"%char) in *.
  assert (EW : ends_in_letter w).
  { destruct E1 as (tt & c & E & I). destruct tt as [|x tt]; cbn [app] in E; [injection E as -> ->; congruence|]. injection E as _ ->. exists tt, c. auto. }
  specialize (IH E2 us ltac:(cbn [length] in L; lia) w Sw EW).
  assert (H : forall r, sub_humps (C :: w ++ r) = C :: sub_humps (w ++ r)).
  { intros r. apply sub_humps_cons. intros. rewrite NL. reflexivity. }
  cbn [combine weave map]. destruct u.
  - rewrite sub_humps_small; [|exact S|right; exists "_"%char, ((C :: w) ++ weave (combine us ups)); split; reflexivity].
    cbn [app]. rewrite sub_humps_cons by reflexivity. rewrite H, IH. reflexivity.
  - destruct ET as (t' & c & -> & I). rewrite <- !app_assoc. cbn [app]. rewrite sub_humps_up; [|intros x J; apply S, in_or_app; left; exact J|exact I|exact U].
    rewrite IH. reflexivity.
Qed.

Lemma lower_weave ups lows : Forall2 word ups lows -> map to_lower (weave (map (fun w => (true, w)) ups)) = weave (map (fun w => (true, w)) lows).
Proof.
  induction 1 as [|up low ups lows W F IH]; [reflexivity|]. destruct W as (i & w & Hi & -> & -> & Nw & Sw).
  destruct (capital_class i Hi) as (_ & _ & _ & TL & _). cbn [map weave app]. rewrite map_app, IH, TL. f_equal. f_equal. f_equal.
  clear Nw. induction w as [|c w IHw]; [reflexivity|]. cbn [map]. destruct (lod_class c (Sw c (or_introl eq_refl))) as (_ & _ & T & _). rewrite T. f_equal.
  apply IHw. intros d I. apply Sw. right. exact I.
Qed.

Lemma snake_list ups lows up low : Forall2 word (up :: ups) (low :: lows) -> Forall ends_in_letter (up :: ups) ->
  map to_lower (sub_humps (sub_words false (concat (up :: ups)))) = low ++ weave (map (fun w => (true, w)) lows).
Proof.
  intros F EL. inversion F as [|? ? ? ? W F']; subst. inversion EL as [|? ? E1 E2]; subst.
  destruct W as (i & w & Hi & -> & -> & Nw & Sw). destruct (capital_class i Hi) as (U & NL & NLD & TL & _).
  destruct (sub_words_words ups lows F') as [H _]. destruct (H w Nw Sw) as (us & L & E).
  cbn [concat app]. rewrite sub_words_step; [|reflexivity|].
  - rewrite E. rewrite sub_humps_cons; [|intros; rewrite NL; reflexivity].
    rewrite (sub_humps_weave ups lows F' E2 us L w Sw).
    + cbn [map app]. rewrite TL, map_app, (lower_weave ups lows F'). f_equal. f_equal.
      clear -Sw. induction w as [|c w IHw]; [reflexivity|]. cbn [map]. destruct (lod_class c (Sw c (or_introl eq_refl))) as (_ & _ & T & _). rewrite T. f_equal.
      apply IHw. intros d I. apply Sw. right. exact I.
    + destruct E1 as (tt & c & E1 & I). destruct tt as [|x tt]; cbn [app] in E1; [injection E1 as _ ->; congruence|]. injection E1 as _ ->. exists tt, c. auto.
  - intros c2 c3 r3 E2'. destruct w as [|d w']; [congruence|]. cbn [app] in E2'. injection E2' as <- _.
    destruct (lod_class d (Sw d (or_introl eq_refl))) as (_ & B & _). rewrite B. reflexivity.
Qed.

Lemma string_app a b : string_of_list_ascii (a ++ b) = (string_of_list_ascii a ++ string_of_list_ascii b)%string.
Proof. induction a as [|c a IH]; [reflexivity|]. cbn [app string_of_list_ascii String.append]. rewrite IH. reflexivity. Qed.

Lemma join_weave low lows : string_of_list_ascii (low ++ weave (map (fun w => (true, w)) lows)) = String.concat "_" (map string_of_list_ascii (low :: lows)).
Proof.
  revert low. induction lows as [|l lows IH]; intros low; [cbn [map weave String.concat]; rewrite app_nil_r; reflexivity|].
  change (String.concat "_" (map string_of_list_ascii (low :: l :: lows)))
    with (string_of_list_ascii low ++ "_" ++ String.concat "_" (map string_of_list_ascii (l :: lows)))%string.
  rewrite <- IH, string_app. cbn [map weave app]. f_equal.
Qed.

Lemma C239_words_pf :
  forall ups lows, Forall2 word ups lows -> Forall ends_in_letter ups ->
    snake_case (string_of_list_ascii (concat ups)) = String.concat "_" (map string_of_list_ascii lows).
Proof.
  intros ups lows F EL. unfold snake_case. rewrite list_ascii_of_string_of_list_ascii. inversion F as [|up low ups' lows' W F']; subst; [reflexivity|].
  rewrite (snake_list ups' lows' up low F EL). apply join_weave.
Qed.

Lemma split_underscore_text t w ws r : ~ In "_"%char t -> split_underscore r = w :: ws -> split_underscore (t ++ r) = (t ++ w) :: ws.
Proof.
  induction t as [|c t IH]; intros N E; [exact E|]. cbn [app split_underscore].
  assert (G : Ascii.eqb c "_" = false) by (apply Ascii.eqb_neq; intros ->; apply N; left; reflexivity).
  rewrite G, IH; [reflexivity|intros I; apply N; right; exact I|exact E].
Qed.

Lemma split_underscore_weave lows low : (forall w, In w (low :: lows) -> ~ In "_"%char w) -> split_underscore (low ++ weave (map (fun w => (true, w)) lows)) = low :: lows.
Proof.
  revert low. induction lows as [|l lows IH]; intros low N.
  - rewrite (split_underscore_text low [] []); [rewrite app_nil_r; reflexivity|apply N; left; reflexivity|reflexivity].
  - rewrite (split_underscore_text low [] (l :: lows)); [rewrite app_nil_r; reflexivity|apply N; left; reflexivity|].
    cbn [map weave]. change (("_"%char :: l) ++ weave (map (fun w => (true, w)) lows)) with ("_"%char :: (l ++ weave (map (fun w => (true, w)) lows))).
    cbn [split_underscore]. change (Ascii.eqb "_" "_") with true. cbn match. rewrite IH; [reflexivity|]. intros w I. apply N. right. exact I.
Qed.

Lemma C239_back_pf :
  forall ups lows, Forall2 word ups lows ->
    camel_case (String.concat "_" (map string_of_list_ascii lows)) = string_of_list_ascii (concat ups).
Proof.
  intros ups lows F. unfold camel_case. destruct lows as [|low lows]; [inversion F; reflexivity|].
  rewrite <- join_weave, list_ascii_of_string_of_list_ascii, split_underscore_weave.
  - f_equal. revert F. generalize (low :: lows). clear. intros l F. induction F as [|up low ups lows W F IH]; [reflexivity|].
    cbn [map concat]. rewrite IH. f_equal. destruct W as (i & w & Hi & -> & -> & _ & Sw). cbn [capitalize].
    destruct (capital_class i Hi) as (_ & _ & _ & _ & TU & _). rewrite TU. f_equal.
    clear -Sw. induction w as [|c w IHw]; [reflexivity|]. cbn [map]. destruct (lod_class c (Sw c (or_introl eq_refl))) as (_ & _ & T & _). rewrite T. f_equal.
    apply IHw. intros d I. apply Sw. right. exact I.
  - intros w I. destruct (Forall2_In_r _ _ _ _ F I) as (up & _ & W). destruct W as (i & t & Hi & _ & -> & _ & Sw).
    destruct (capital_class i Hi) as (_ & _ & _ & _ & _ & IL & _). intros [E|J].
    + destruct (letter_class _ IL) as (_ & _ & _ & N). apply N. exact E.
    + destruct (lod_class _ (Sw _ J)) as (_ & _ & _ & N & _). apply N. reflexivity.
Qed.

(** [d] is [c] in small letters *)

Definition same_letter (c d : ascii) : Prop :=
  (exists i, nth_error capitals i = Some c /\ nth_error letters i = Some d) \/ (~ In c capitals /\ d = c).

Definition without_underscores (s : string) : list ascii := filter (fun c => if ascii_dec c "_" then false else true) (list_ascii_of_string s).

Lemma to_lower_same c : same_letter c (to_lower c).
Proof.
  destruct (in_dec ascii_dec c capitals) as [I|N].
  - left. apply In_nth_error in I. destruct I as [i E]. exists i. split; [exact E|].
    assert (H : (i < 26)%nat) by (change 26%nat with (length capitals); apply nth_error_Some; congruence).
    destruct (capital_class i H) as (_ & _ & _ & T & _). rewrite (nth_error_nth _ _ "000"%char E) in T. rewrite T.
    apply nth_error_nth'. exact H.
  - right. split; [exact N|]. unfold to_lower. destruct (is_upper c) eqn:U; [|reflexivity]. exfalso. apply N.
    destruct c as [[] [] [] [] [] [] [] []]; vm_compute in U; try discriminate U; vm_compute; tauto.
Qed.

Lemma filter_sub_words n : forall s copying, (length s <= n)%nat ->
  filter (fun c => if ascii_dec c "_" then false else true) (sub_words copying s) = filter (fun c => if ascii_dec c "_" then false else true) s.
Proof.
  set (nu := fun c => if ascii_dec c "_" then false else true).
  induction n as [|n IH]; intros s copying L; [destruct s; [reflexivity|cbn [length] in L; lia]|].
  destruct s as [|c r]; [reflexivity|]. cbn [length] in L. cbn [sub_words].
  assert (H : forall b, filter nu (c :: sub_words b r) = filter nu (c :: r)).
  { intros b. cbn [filter]. rewrite (IH r b ltac:(lia)). reflexivity. }
  destruct (copying && lower_or_digit c); [apply H|].
  destruct r as [|c2 [|c3 r3]]; [apply H|apply H|].
  destruct (negb (Ascii.eqb c "010") && is_upper c2 && lower_or_digit c3); [|apply H].
  cbn [length] in L. cbn [filter]. assert (E : filter nu (sub_words true (c3 :: r3)) = filter nu (c3 :: r3)) by (apply IH; cbn [length]; lia).
  rewrite E. cbn [filter]. change (nu "_"%char) with false. cbn match. reflexivity.
Qed.

Lemma filter_sub_humps n : forall s, (length s <= n)%nat ->
  filter (fun c => if ascii_dec c "_" then false else true) (sub_humps s) = filter (fun c => if ascii_dec c "_" then false else true) s.
Proof.
  set (nu := fun c => if ascii_dec c "_" then false else true).
  induction n as [|n IH]; intros s L; [destruct s; [reflexivity|cbn [length] in L; lia]|].
  destruct s as [|c [|c2 r2]]; [reflexivity|reflexivity|]. cbn [length] in L. cbn [sub_humps]. destruct (is_lower c && is_upper c2).
  - cbn [filter]. rewrite (IH r2 ltac:(lia)). change (nu "_"%char) with false. cbn match. reflexivity.
  - change (match r2 with [] => c2 :: r2 | c4 :: r5 => if is_lower c2 && is_upper c4 then c2 :: "_"%char :: c4 :: sub_humps r5 else c2 :: sub_humps r2 end) with (sub_humps (c2 :: r2)).
    cbn [filter]. rewrite (IH (c2 :: r2) ltac:(cbn [length]; lia)). reflexivity.
Qed.

Lemma C239_letters_kept_pf :
  forall s, Forall2 same_letter (without_underscores s) (without_underscores (snake_case s)).
Proof.
  intros s. unfold without_underscores, snake_case. rewrite list_ascii_of_string_of_list_ascii.
  set (nu := fun c => if ascii_dec c "_" then false else true).
  assert (E : filter nu (map to_lower (sub_humps (sub_words false (list_ascii_of_string s)))) = map to_lower (filter nu (list_ascii_of_string s))).
  { pose proof (filter_sub_words (length (list_ascii_of_string s)) _ false (le_n _)) as A. fold nu in A.
    pose proof (filter_sub_humps (length (sub_words false (list_ascii_of_string s))) _ (le_n _)) as B. fold nu in B.
    rewrite <- A, <- B. generalize (sub_humps (sub_words false (list_ascii_of_string s))). clear. intros l. induction l as [|c l IH]; [reflexivity|].
    cbn [map filter]. rewrite IH. assert (H : nu (to_lower c) = nu c).
    { destruct c as [[] [] [] [] [] [] [] []]; reflexivity. }
    rewrite H. destruct (nu c); reflexivity. }
  rewrite E. generalize (filter nu (list_ascii_of_string s)). intros l. induction l as [|c l IH]; constructor; [apply to_lower_same|exact IH].
Qed.

Lemma word_of i t : (i < 26)%nat -> t <> [] -> forallb (fun c => if in_dec ascii_dec c (letters ++ digits) then true else false) t = true ->
  word (nth i capitals "000"%char :: t) (nth i letters "000"%char :: t).
Proof.
  intros H N F. exists i, t. repeat split; auto. intros c I. rewrite forallb_forall in F. specialize (F c I). destruct in_dec as [J|]; [|discriminate].
  apply in_app_or in J. exact J.
Qed.

Lemma C239_digits_refuted_pf :
  exists ups lows, Forall2 word ups lows /\ snake_case (string_of_list_ascii (concat ups)) <> String.concat "_" (map string_of_list_ascii lows).
Proof.
  exists [list_ascii_of_string "My"; list_ascii_of_string "Top5"; list_ascii_of_string "Accuracy"],
         [list_ascii_of_string "my"; list_ascii_of_string "top5"; list_ascii_of_string "accuracy"]. split; [|vm_compute; discriminate].
  constructor; [apply (word_of 12 ["y"%char]); [lia|discriminate|reflexivity]|].
  constructor; [apply (word_of 19 (list_ascii_of_string "op5")); [lia|discriminate|reflexivity]|].
  constructor; [apply (word_of 0 (list_ascii_of_string "ccuracy")); [lia|discriminate|reflexivity]|constructor].
Qed.

(** The settings TFMA's version of a class has no parameter for and the values that may be left out
    (written out: every class; AUC; the losses that are means). *)

Definition means : list string :=
  ["MeanAbsoluteError"; "MeanSquaredError"; "MeanAbsolutePercentageError"; "BinaryCrossEntropy"; "CategoricalCrossEntropy"].

Definition no_parameter (class param : string) : Prop :=
  param = "dtype" \/ (class = "AUC" /\ In param ["multi_label"; "from_logits"; "num_labels"; "label_weights"]) \/ (In class means /\ param = "reduction").

Definition default_value (param : string) (v : json) : Prop :=
  (param = "dtype" /\ (v = JNull \/ v = JStr "float32")) \/ (In param ["multi_label"; "from_logits"] /\ (v = JBool false \/ v = JNum 0%Qc)) \/
  (In param ["num_labels"; "label_weights"] /\ v = JNull) \/ (param = "reduction" /\ v = JStr "auto").

Lemma checked_cases class : class <> "MeanSqauredLogarithmicError" ->
  (class = "AUC" /\ checked_settings class = [("dtype", [JNull; JStr "float32"]); ("multi_label", [JBool false]); ("num_labels", [JNull]); ("label_weights", [JNull]); ("from_logits", [JBool false])]) \/
  (In class means /\ checked_settings class = [("dtype", [JNull; JStr "float32"]); ("reduction", [JStr "auto"])]) \/
  (class <> "AUC" /\ ~ In class means /\ checked_settings class = [("dtype", [JNull; JStr "float32"])]).
Proof.
  intros N.
  destruct (string_dec class "AUC") as [->|N1]; [left; split; reflexivity|].
  destruct (in_dec string_dec class means) as [I|N2].
  - right. left. split; [exact I|]. destruct I as [<-|[<-|[<-|[<-|[<-|[]]]]]]; reflexivity.
  - right. right. split; [exact N1|split; [exact N2|]].
    assert (F : forall x, class <> x -> String.eqb x class = false) by (intros x H; apply String.eqb_neq; congruence).
    assert (M : forall x, In x means -> class <> x) by (intros x I ->; contradiction).
    unfold checked_settings, unsupported_settings. cbn [flat_map fst snd].
    rewrite (F "AUC" N1), (F _ N), (F "MeanAbsoluteError"), (F "MeanSquaredError"), (F "MeanAbsolutePercentageError"), (F "BinaryCrossEntropy"), (F "CategoricalCrossEntropy");
      try (apply M; cbn; tauto). reflexivity.
Qed.

Lemma no_parameter_checked class p : class <> "MeanSqauredLogarithmicError" -> (no_parameter class p <-> In p (map fst (checked_settings class))).
Proof.
  intros N. unfold no_parameter. destruct (checked_cases class N) as [(E & ->)|[(I & ->)|(E & I & ->)]]; cbn [map fst In].
  - subst. split; [intros [->|[(_ & [<-|[<-|[<-|[<-|[]]]]])|(I & _)]]; try tauto; exfalso; cbn in I; intuition discriminate|intros [<-|[<-|[<-|[<-|[<-|[]]]]]]; cbn; tauto].
  - split; [intros [->|[(-> & _)|(_ & ->)]]; try tauto; exfalso; cbn in I; intuition discriminate|intros [<-|[<-|[]]]; tauto].
  - split; [intros [->|[(? & _)|(? & _)]]; [left; reflexivity|contradiction|contradiction]|intros [<-|[]]; tauto].
Qed.

Lemma json_eqb_const v : (json_eqb v JNull = true <-> v = JNull) /\ (forall s, json_eqb v (JStr s) = true <-> v = JStr s) /\
  (json_eqb v (JBool false) = true <-> v = JBool false \/ v = JNum 0%Qc).
Proof.
  split; [|split].
  - destruct v; cbn; split; congruence.
  - intros s. destruct v; cbn; try (split; congruence). rewrite String.eqb_eq. split; congruence.
  - destruct v; cbn; try (split; [discriminate|intros [|]; discriminate]).
    + destruct b; cbn; split; try discriminate; auto. intros [|]; discriminate.
    + destruct (Qc_eqb q 0%Qc) eqn:E; [apply Qc_eqb_eq in E; subst; tauto|]. split; [discriminate|intros [|H]; [discriminate|]]. injection H as ->.
      exfalso. assert (X : Qc_eqb 0%Qc 0%Qc = true) by reflexivity. congruence.
Qed.

Lemma default_checked class p vs v : class <> "MeanSqauredLogarithmicError" -> In (p, vs) (checked_settings class) -> (existsb (json_eqb v) vs = true <-> default_value p v).
Proof.
  intros N I. destruct (json_eqb_const v) as (J1 & J2 & J3).
  assert (O : forall b, b || false = b) by (intros []; reflexivity).
  unfold default_value. destruct (checked_cases class N) as [(E & C)|[(_ & C)|(_ & _ & C)]]; rewrite C in I; cbn [In] in I;
    repeat (destruct I as [I|I]; [injection I as <- <-; cbn [existsb]; rewrite ?O, ?orb_true_iff, ?J1, ?J2, ?J3; cbn [In]; intuition (try discriminate; try tauto)|]); destruct I.
Qed.

Lemma ddel_get (l : list (string * json)) k k' : NoDup (map fst l) -> dget String.eqb (ddel String.eqb l k) k' = if String.eqb k k' then None else dget String.eqb l k'.
Proof.
  induction l as [|[a v] l IH]; intros ND; [cbn; destruct (String.eqb k k'); reflexivity|]. inversion ND as [|? ? NI ND']; subst. cbn [ddel].
  destruct (String.eqb k a) eqn:E.
  - apply String.eqb_eq in E. subst a. cbn [dget]. destruct (String.eqb k k') eqn:E2.
    + apply String.eqb_eq in E2. subst k'. apply (dget_None _ String.eqb_eq). exact NI.
    + destruct (String.eqb k' k) eqn:E3; [apply String.eqb_eq in E3; subst; rewrite String.eqb_refl in E2; discriminate|reflexivity].
  - cbn [dget]. rewrite (IH ND'). destruct (String.eqb k' a) eqn:E3; [|reflexivity]. apply String.eqb_eq in E3. subst. rewrite E. reflexivity.
Qed.

Lemma ddels_get (ps : list (string * list json)) : forall (l : list (string * json)) k, NoDup (map fst l) ->
  dget String.eqb (fold_left (fun s pv => ddel String.eqb s (fst pv)) ps l) k = if in_dec string_dec k (map fst ps) then None else dget String.eqb l k.
Proof.
  induction ps as [|[p vs] ps IH]; intros l k ND; [reflexivity|]. cbn [fold_left]. rewrite IH by (apply (ddel_NoDup _ String.eqb_eq), ND). rewrite (ddel_get _ _ _ ND). cbn [map fst].
  destruct (in_dec string_dec k (map fst ps)) as [I|N]; destruct (in_dec string_dec k (p :: map fst ps)) as [J|M]; try reflexivity.
  - exfalso. apply M. right. exact I.
  - destruct J as [->|J]; [rewrite String.eqb_refl; reflexivity|contradiction].
  - destruct (String.eqb p k) eqn:E; [apply String.eqb_eq in E; subst; exfalso; apply M; left; reflexivity|reflexivity].
Qed.

(** What config_from_metric writes for a class that is not a wrapped function *)

Lemma serialize_plain wrapper m : mt_registered m <> wrapper -> serialize wrapper m = Ok (mt_registered m, mt_settings m).
Proof. intros N. unfold serialize. rewrite (proj2 (String.eqb_neq _ _) N). reflexivity. Qed.

Lemma C240_native_pf :
  forall e m, mt_kind m = KerasMetric \/ mt_kind m = KerasLoss -> mt_registered m = mt_class m ->
    ~ In (mt_class m) ["MeanMetricWrapper"; "MeanSqauredLogarithmicError"] -> In (mt_class m) (map fst (env_registry e)) -> NoDup (map fst (mt_settings m)) ->
    (forall p v, dget String.eqb (mt_settings m) p = Some v -> no_parameter (mt_class m) p -> default_value p v) ->
    exists c, config_from_metric e m = Ok c /\ cf_class c = mt_class m /\ cf_module c = "" /\
      forall p, (no_parameter (mt_class m) p -> dget String.eqb (cf_settings c) p = None) /\
                (~ no_parameter (mt_class m) p -> dget String.eqb (cf_settings c) p = dget String.eqb (mt_settings m) p).
Proof.
  intros e m K R N G ND D.
  assert (N1 : mt_registered m <> "MeanMetricWrapper") by (rewrite R; intros E; apply N; left; congruence).
  assert (N2 : mt_class m <> "MeanSqauredLogarithmicError") by (intros E; apply N; right; left; congruence).
  assert (S : is_supported e m = true).
  { unfold is_supported. apply andb_true_iff. split; [apply (dmem_In _ String.eqb_eq), G|].
    apply forallb_forall. intros [p vs] I. cbn [fst snd]. destruct (dget String.eqb (mt_settings m) p) as [v|] eqn:E; [|reflexivity].
    apply (default_checked (mt_class m) p vs v N2 I). apply (D p v E). apply no_parameter_checked; [exact N2|]. apply (in_map fst) in I. exact I. }
  exists (remove_unsupported (Config (mt_class m) (mt_module m) (mt_settings m))).
  split.
  - unfold config_from_metric, serialize_tf_metric. rewrite S, (serialize_plain _ _ N1). cbn [bind fst snd].
    rewrite R, String.eqb_refl. destruct K as [-> | ->]; reflexivity.
  - split; [reflexivity|]. split; [reflexivity|]. intros p. unfold remove_unsupported. cbn [cf_settings cf_class]. rewrite (ddels_get _ _ _ ND).
    pose proof (no_parameter_checked (mt_class m) p N2) as NP. destruct in_dec as [I|J]; split; intros H; try reflexivity; exfalso; tauto.
Qed.

Lemma C240_kept_pf :
  forall e m, mt_kind m = KerasMetric \/ mt_kind m = KerasLoss -> mt_registered m = mt_class m ->
    ~ In (mt_class m) ["MeanMetricWrapper"; "LossFunctionWrapper"; "MeanSqauredLogarithmicError"] ->
    ~ In (mt_class m) (map fst (env_registry e)) \/
      (exists p v, dget String.eqb (mt_settings m) p = Some v /\ no_parameter (mt_class m) p /\ ~ default_value p v) ->
    config_from_metric e m = Ok (Config (mt_class m) (mt_module m) (mt_settings m)).
Proof.
  intros e m K R N G.
  assert (N1 : mt_registered m <> "MeanMetricWrapper") by (rewrite R; intros E; apply N; left; congruence).
  assert (N3 : mt_registered m <> "LossFunctionWrapper") by (rewrite R; intros E; apply N; right; left; congruence).
  assert (N2 : mt_class m <> "MeanSqauredLogarithmicError") by (intros E; apply N; right; right; left; congruence).
  assert (S : is_supported e m = false).
  { apply not_true_is_false. unfold is_supported. rewrite andb_true_iff. intros [A B]. destruct G as [G|(p & v & E & NP & ND)].
    - apply G. apply (dmem_In _ String.eqb_eq) in A. exact A.
    - apply no_parameter_checked in NP; [|exact N2]. apply in_map_iff in NP. destruct NP as ([p' vs] & <- & I). cbn [fst] in *.
      rewrite forallb_forall in B. specialize (B _ I). cbn [fst snd] in B. rewrite E in B. apply ND. apply (default_checked _ _ _ v N2 I). exact B. }
  unfold config_from_metric, serialize_tf_metric, serialize_tf_loss. rewrite S, (serialize_plain _ _ N1), (serialize_plain _ _ N3). cbn [bind fst snd].
  rewrite R, String.eqb_refl. destruct K as [-> | ->]; reflexivity.
Qed.

Lemma C240_reduction_refuted_pf :
  exists e m c, mt_kind m = KerasLoss /\ mt_registered m = mt_class m /\ In (mt_class m) (map fst (env_registry e)) /\
    dget String.eqb (mt_settings m) "reduction" = Some (JStr "sum") /\
    config_from_metric e m = Ok c /\ cf_module c = "" /\ dget String.eqb (cf_settings c) "reduction" = Some (JStr "sum").
Proof.
  exists (Env [("MeanSquaredLogarithmicError", "tfma.metrics")] [] []),
    (Metric KerasLoss "MeanSquaredLogarithmicError" "tf_keras.losses" "MeanSquaredLogarithmicError" [("reduction", JStr "sum"); ("name", JStr "msle")]), 
    (Config "MeanSquaredLogarithmicError" "" [("reduction", JStr "sum"); ("name", JStr "msle")]).
  repeat split; try reflexivity. left. reflexivity.
Qed.

Definition example_env : env :=
  Env [("AUC", "tfma.metrics"); ("MeanSquaredError", "tfma.metrics"); ("ExampleCount", "tfma.metrics")]
      [("Accuracy", (KerasMetric, "tf_keras.metrics")); ("pkg>Mine", (KerasMetric, "my.metrics"))]
      [("tf_keras.metrics", [("Accuracy", KerasMetric); ("AUC", KerasMetric)]); ("my.metrics", [("Custom", TfmaMetric); ("AUC", KerasMetric); ("Helper", OtherKind)]);
       ("tf_keras.losses", [("Huber", KerasLoss)])].

Lemma C241_back_tfma_pf :
  forall e m, mt_kind m = TfmaMetric -> mt_registered m = mt_class m -> dget String.eqb (env_registry e) (mt_class m) = Some (mt_module m) ->
    exists c, config_from_metric e m = Ok c /\ metric_instance e c = Ok (Instance TfmaMetric (mt_module m) (mt_class m) (mt_settings m)).
Proof.
  intros e m K R G. exists (Config (mt_class m) "" (mt_settings m)). unfold config_from_metric. rewrite K. unfold serialize_tfma. rewrite R.
  split; [reflexivity|]. unfold metric_instance. cbn [cf_class cf_settings]. rewrite G. reflexivity.
Qed.

Lemma C241_back_keras_pf :
  forall e m classes, mt_kind m = KerasMetric \/ mt_kind m = KerasLoss -> mt_registered m = mt_class m ->
    ~ In (mt_class m) ["MeanMetricWrapper"; "LossFunctionWrapper"; "MeanSqauredLogarithmicError"] -> ~ In (mt_class m) (map fst (env_registry e)) ->
    mt_module m <> "" -> dget String.eqb (env_modules e) (mt_module m) = Some classes -> dget String.eqb classes (mt_class m) = Some (mt_kind m) ->
    exists c s, config_from_metric e m = Ok c /\ metric_instance e c = Ok (Instance (mt_kind m) (mt_module m) (mt_class m) s) /\
      (forall p, p <> "name" \/ In p (map fst (mt_settings m)) -> dget String.eqb s p = dget String.eqb (mt_settings m) p) /\
      In "name" (map fst s).
Proof.
  intros e m classes K R N G NM M C. exists (Config (mt_class m) (mt_module m) (mt_settings m)), (add_name (mt_class m) (mt_settings m)).
  split; [apply C240_kept_pf; auto|]. split.
  - unfold metric_instance. cbn [cf_class cf_settings cf_module].
    assert (E : dget String.eqb (env_registry e) (mt_class m) = None) by (apply (dget_None _ String.eqb_eq), G).
    rewrite E, (proj2 (String.eqb_neq _ _) NM), M, C. destruct K as [-> | ->]; reflexivity.
  - unfold add_name. destruct (dmem String.eqb (mt_settings m) "name") eqn:D.
    + split; [reflexivity|]. apply (dmem_In _ String.eqb_eq) in D. exact D.
    + split.
      * intros p H. apply (dget_dset_neq _ String.eqb_eq). intros E. subst p. destruct H as [H|H]; [congruence|].
        apply (dmem_In _ String.eqb_eq) in H. unfold dkeys in H. congruence.
      * apply (dset_keys_In _ String.eqb_eq). left. reflexivity.
Qed.

Lemma C241_module_pf :
  forall e c classes k, cf_module c <> "" -> ~ In (cf_class c) (map fst (env_registry e)) ->
    dget String.eqb (env_modules e) (cf_module c) = Some classes -> dget String.eqb classes (cf_class c) = Some k -> k <> OtherKind ->
    exists s, metric_instance e c = Ok (Instance k (cf_module c) (cf_class c) s).
Proof.
  intros e c classes k NM G M C NK. unfold metric_instance.
  assert (E : dget String.eqb (env_registry e) (cf_class c) = None) by (apply (dget_None _ String.eqb_eq), G).
  rewrite E, (proj2 (String.eqb_neq _ _) NM), M, C. destruct k; try congruence; eexists; reflexivity.
Qed.

Lemma C241_module_refuted_pf :
  exists e c classes, cf_module c = "my.metrics" /\ dget String.eqb (env_modules e) (cf_module c) = Some classes /\
    dget String.eqb classes (cf_class c) = Some KerasMetric /\
    exists i, metric_instance e c = Ok i /\ in_module i = "tfma.metrics" /\ in_kind i = TfmaMetric.
Proof.
  exists example_env, (Config "AUC" "my.metrics" []), [("Custom", TfmaMetric); ("AUC", KerasMetric); ("Helper", OtherKind)].
  repeat split; try reflexivity. eexists. repeat split; reflexivity.
Qed.

Lemma C241_custom_refuted_pf :
  exists e m c classes, mt_kind m = TfmaMetric /\ dget String.eqb (env_modules e) (mt_module m) = Some classes /\
    dget String.eqb classes (mt_class m) = Some TfmaMetric /\ config_from_metric e m = Ok c /\ metric_instance e c = Err ValueError.
Proof.
  exists example_env, (Metric TfmaMetric "Custom" "my.metrics" "Custom" [("name", JStr "custom")]), (Config "Custom" "" [("name", JStr "custom")]),
    [("Custom", TfmaMetric); ("AUC", KerasMetric); ("Helper", OtherKind)]. repeat split; reflexivity.
Qed.

Lemma C241_wrapped_refuted_pf :
  exists e m c, mt_kind m = KerasMetric /\ mt_class m = "MeanMetricWrapper" /\ dget String.eqb (mt_settings m) "name" = Some (JStr "categorical_accuracy") /\
    dget String.eqb (env_keras e) "CategoricalAccuracy" = Some (KerasMetric, "tf_keras.metrics") /\
    config_from_metric e m = Ok c /\ cf_class c = "CategoricalAccuracy" /\ metric_instance e c = Err AttributeError.
Proof.
  exists (Env [] [("CategoricalAccuracy", (KerasMetric, "tf_keras.metrics"))] [("tf_keras.base", [("MeanMetricWrapper", KerasMetric)])]),
    (Metric KerasMetric "MeanMetricWrapper" "tf_keras.base" "MeanMetricWrapper" [("name", JStr "categorical_accuracy")]),
    (Config "CategoricalAccuracy" "tf_keras.base" [("name", JStr "categorical_accuracy")]). repeat split; reflexivity.
Qed.

Definition configs_of (e : env) (ms : list metric) (cs : list config) : Prop := Forall2 (fun m c => config_from_metric e m = Ok c) ms cs.

Lemma mapM_configs e ms : forall cs, configs_of e ms cs -> mapM (config_from_metric e) ms = Ok cs.
Proof. induction 1 as [|m c ms cs E F IH]; [reflexivity|]. cbn [mapM]. rewrite E. cbn [bind]. rewrite IH. reflexivity. Qed.

(** A wanted count: not switched off *)

Definition wanted (b : option bool) : Prop := b <> Some false.

(** The specs of two lists of metrics *)

Definition listed_spec (ms us : list config) (outputs : list string) (o : spec_options) (count weighted : option bool) (s : spec) : Prop :=
  (wanted count /\ s = Spec [Config "ExampleCount" "" [("name", JStr "example_count")]] (so_models o) [] [] None None (Some (false, true)) "") \/
  (wanted weighted /\ s = Spec [Config "WeightedExampleCount" "" [("name", JStr "weighted_example_count")]] (so_models o) outputs (so_output_weights o) None None (Some (true, false)) "") \/
  (ms <> [] /\ s = Spec ms (so_models o) outputs (so_output_weights o) (so_binarize o) (so_aggregate o) None (so_query_key o)) \/
  (us <> [] /\ s = Spec us (so_models o) outputs (so_output_weights o) (so_binarize o) (so_aggregate o) (Some (false, true)) (so_query_key o)).

Definition one_if {A} (o : option bool) (x : A) : list A := match o with Some false => [] | _ => [x] end.

Lemma specs_of_lists_ok e ms us cs ds outputs o count weighted : configs_of e ms cs -> configs_of e us ds ->
  exists l, specs_of_lists e ms us outputs o count weighted = Ok l /\ (forall s, In s l <-> listed_spec cs ds outputs o count weighted s) /\
    length l = (match count with Some false => 0 | _ => 1 end + match weighted with Some false => 0 | _ => 1 end + match ms with [] => 0 | _ => 1 end + match us with [] => 0 | _ => 1 end)%nat /\
    (length (filter (fun s => match sp_outputs s with [] => true | _ => false end) l) = match count with Some false => 0 | _ => 1 end \/ outputs = [])%nat.
Proof.
  intros F1 F2. unfold specs_of_lists, example_count_specs.
  assert (H : forall ms cs ew, configs_of e ms cs ->
    match ms with [] => Ok [] | _ => let! c := mapM (config_from_metric e) ms in Ok [Spec c (so_models o) outputs (so_output_weights o) (so_binarize o) (so_aggregate o) ew (so_query_key o)] end =
    Ok (match cs with [] => [] | _ => [Spec cs (so_models o) outputs (so_output_weights o) (so_binarize o) (so_aggregate o) ew (so_query_key o)] end)).
  { intros ms' cs' ew F. rewrite (mapM_configs _ _ _ F). inversion F; reflexivity. }
  rewrite (H ms cs None F1), (H us ds (Some (false, true)) F2). cbn [bind]. eexists. split; [reflexivity|].
  assert (W : forall b, wanted b <-> match b with Some x => x | None => true end = true).
  { intros [[]|]; unfold wanted; split; congruence. }
  split; [|split].
  - intros s. unfold listed_spec. rewrite !in_app_iff, (W count), (W weighted).
    destruct (match count with Some x => x | None => true end); destruct (match weighted with Some x => x | None => true end);
      destruct cs; destruct ds; cbn [In]; intuition (try discriminate; try congruence; try (left; congruence); auto).
  - rewrite !app_length. inversion F1; inversion F2; subst; destruct count as [[]|]; destruct weighted as [[]|]; reflexivity.
  - destruct outputs as [|x outputs]; [right; reflexivity|left]. rewrite !filter_app, !app_length. destruct cs; destruct ds; destruct count as [[]|]; destruct weighted as [[]|]; reflexivity.
Qed.

Lemma C242_lists_pf :
  forall e ms us cs ds outputs o count weighted, configs_of e ms cs -> configs_of e us ds ->
    exists l, specs_from_metrics e (Some (MetricList ms)) (Some (MetricList us)) outputs o count weighted = Ok l /\
      (forall s, In s l <-> listed_spec cs ds outputs o count weighted s) /\
      length l = (length (one_if count tt) + length (one_if weighted tt) + Nat.min 1 (length ms) + Nat.min 1 (length us))%nat.
Proof.
  intros e ms us cs ds outputs o count weighted F1 F2. destruct (specs_of_lists_ok e ms us cs ds outputs o count weighted F1 F2) as (l & E & S & L & _).
  exists l. split.
  - unfold specs_from_metrics. cbn [is_dict andb orb as_list]. destruct (truthy_arg _ && truthy_arg _); cbn [andb Bool.eqb negb]; exact E.
  - split; [exact S|]. rewrite L. destruct ms; destruct us; destruct count as [[]|]; destruct weighted as [[]|]; reflexivity.
Qed.

Lemma C242_order_pf :
  forall e ms us cs ds outputs o count weighted, configs_of e ms cs -> configs_of e us ds ->
    specs_from_metrics e (Some (MetricList ms)) (Some (MetricList us)) outputs o count weighted =
    Ok (one_if count (Spec [Config "ExampleCount" "" [("name", JStr "example_count")]] (so_models o) [] [] None None (Some (false, true)) "") ++
        one_if weighted (Spec [Config "WeightedExampleCount" "" [("name", JStr "weighted_example_count")]] (so_models o) outputs (so_output_weights o) None None (Some (true, false)) "") ++
        firstn (length cs) [Spec cs (so_models o) outputs (so_output_weights o) (so_binarize o) (so_aggregate o) None (so_query_key o)] ++
        firstn (length ds) [Spec ds (so_models o) outputs (so_output_weights o) (so_binarize o) (so_aggregate o) (Some (false, true)) (so_query_key o)]).
Proof.
  intros e ms us cs ds outputs o count weighted F1 F2.
  assert (R : specs_from_metrics e (Some (MetricList ms)) (Some (MetricList us)) outputs o count weighted = specs_of_lists e ms us outputs o count weighted).
  { unfold specs_from_metrics. cbn [is_dict andb orb as_list]. destruct (truthy_arg _ && truthy_arg _); reflexivity. }
  rewrite R. unfold specs_of_lists, example_count_specs.
  assert (H : forall ms cs ew, configs_of e ms cs ->
    match ms with [] => Ok [] | _ => let! c := mapM (config_from_metric e) ms in Ok [Spec c (so_models o) outputs (so_output_weights o) (so_binarize o) (so_aggregate o) ew (so_query_key o)] end =
    Ok (firstn (length cs) [Spec cs (so_models o) outputs (so_output_weights o) (so_binarize o) (so_aggregate o) ew (so_query_key o)])).
  { intros ms' cs' ew F. rewrite (mapM_configs _ _ _ F). inversion F; [reflexivity|]. cbn [length firstn bind]. rewrite firstn_nil. reflexivity. }
  rewrite (H ms cs None F1), (H us ds (Some (false, true)) F2). cbn [bind]. rewrite <- app_assoc. destruct count as [[]|]; destruct weighted as [[]|]; reflexivity.
Qed.

Lemma C242_none_pf :
  forall e ms us outputs o count weighted,
    specs_from_metrics e (Some (MetricList ms)) None outputs o count weighted = specs_from_metrics e (Some (MetricList ms)) (Some (MetricList [])) outputs o count weighted /\
    specs_from_metrics e None (Some (MetricList us)) outputs o count weighted = specs_from_metrics e (Some (MetricList [])) (Some (MetricList us)) outputs o count weighted.
Proof. intros. split; unfold specs_from_metrics; destruct ms; destruct us; reflexivity. Qed.

Lemma C242_no_metric_pf :
  forall e ms us outputs o count weighted m, In m (ms ++ us) -> mt_kind m = OtherKind ->
    is_ok (specs_from_metrics e (Some (MetricList ms)) (Some (MetricList us)) outputs o count weighted) = false.
Proof.
  intros e ms us outputs o count weighted m I K.
  assert (H : forall l, In m l -> exists x, mapM (config_from_metric e) l = Err x).
  { induction l as [|a l IH]; intros J; [destruct J|]. cbn [mapM]. destruct (config_from_metric e a) as [c|x] eqn:E; [|exists x; reflexivity].
    destruct J as [->|J]; [unfold config_from_metric in E; rewrite K in E; discriminate E|]. destruct (IH J) as [x ->]. exists x. reflexivity. }
  assert (R : is_ok (specs_of_lists e ms us outputs o count weighted) = false).
  { unfold specs_of_lists. apply in_app_or in I. destruct I as [I|I]; destruct (H _ I) as [x E].
    - destruct ms as [|a ms]; [destruct I|]. rewrite E. reflexivity.
    - destruct us as [|b us]; [destruct I|]. rewrite E. destruct ms as [|a ms]; [reflexivity|].
      destruct (mapM (config_from_metric e) (a :: ms)); reflexivity. }
  unfold specs_from_metrics. cbn [is_dict andb orb as_list]. destruct (truthy_arg _ && truthy_arg _); cbn [andb Bool.eqb negb]; exact R.
Qed.

Definition output_configs (e : env) (d : list (string * list metric)) (n : string) (cs : list config) : Prop :=
  (exists ms, dget String.eqb d n = Some ms /\ configs_of e ms cs) \/ (dget String.eqb d n = None /\ cs = []).

Definition no_outputs (s : spec) : bool := match sp_outputs s with [] => true | _ => false end.

Lemma output_configs_given e d n cs : output_configs e d n cs -> configs_of e (given (dget String.eqb d n)) cs.
Proof. intros [(ms & -> & F)|(-> & ->)]; [exact F|constructor]. Qed.

Lemma configs_of_fun e ms : forall cs ds, configs_of e ms cs -> configs_of e ms ds -> cs = ds.
Proof.
  induction ms as [|m ms IH]; intros cs ds F G; inversion F; inversion G; subst; [reflexivity|]. f_equal; [congruence|]. apply IH; assumption.
Qed.

Lemma listed_spec_outputs cs ds n o weighted s : listed_spec cs ds [n] o (Some false) weighted s -> sp_outputs s = [n].
Proof. intros [(W & _)|[(_ & ->)|[(_ & ->)|(_ & ->)]]]; try reflexivity. exfalso. apply W. reflexivity. Qed.

Definition count_spec (o : spec_options) : spec :=
  Spec [Config "ExampleCount" "" [("name", JStr "example_count")]] (so_models o) [] [] None None (Some (false, true)) "".

(** What is left of the options for one output *)

Definition of_one_output (o : spec_options) : spec_options := SpecOptions (so_models o) [] (so_binarize o) (so_aggregate o) "".

Lemma specs_of_outputs_ok e dm du o weighted : forall names count,
  (forall n, In n names -> exists cs ds, output_configs e dm n cs /\ output_configs e du n ds) ->
  exists l, specs_of_outputs e dm du names o count weighted = Ok l /\
    (forall s, In s l <-> (wanted count /\ names <> [] /\ s = count_spec o) \/
       exists n cs ds, In n names /\ output_configs e dm n cs /\ output_configs e du n ds /\ listed_spec cs ds [n] (of_one_output o) (Some false) weighted s) /\
    (length (filter no_outputs l) <= 1)%nat /\ (count = Some false -> filter no_outputs l = []) /\
    (forall (R : string -> string -> Prop), (forall x, R x x) -> StronglySorted R names -> StronglySorted R (flat_map sp_outputs l)) /\
    (forall x, In x (flat_map sp_outputs l) -> In x names).
Proof.
  induction names as [|n names IH]; intros count H.
  { exists []. split; [reflexivity|]. split; [intros s; split; [intros []|intros [(_ & N & _)|(n & _ & _ & [] & _)]; congruence]|].
    split; [cbn; lia|]. split; [reflexivity|]. split; [intros; constructor|intros x []]. }
  destruct (H n (or_introl eq_refl)) as (cs & ds & C & D).
  destruct (specs_of_lists_ok e _ _ cs ds [n] (of_one_output o) count weighted (output_configs_given _ _ _ _ C) (output_configs_given _ _ _ _ D)) as (l1 & E1 & S1 & _ & F1).
  destruct (IH (Some false) ltac:(intros m I; apply H; right; exact I)) as (l2 & E2 & S2 & L2 & F2 & O2 & X2).
  exists (l1 ++ l2). cbn [specs_of_outputs]. fold (of_one_output o). rewrite E1. cbn [bind]. rewrite E2. cbn [bind]. split; [reflexivity|].
  assert (S1' : forall s, In s l1 <-> (wanted count /\ s = count_spec o) \/ listed_spec cs ds [n] (of_one_output o) (Some false) weighted s).
  { intros s. rewrite S1. unfold listed_spec at 1. split.
    - intros [(W & ->)|R]; [left; split; [exact W|reflexivity]|right; right; exact R].
    - intros [(W & ->)|[(W & _)|R]]; [left; split; [exact W|reflexivity]|exfalso; apply W; reflexivity|right; exact R]. }
  assert (O1 : forall s, In s l1 -> sp_outputs s = [] \/ sp_outputs s = [n]).
  { intros s I. apply S1' in I. destruct I as [(_ & ->)|L]; [left; reflexivity|right; apply (listed_spec_outputs _ _ _ _ _ _ L)]. }
  assert (FL : Forall (eq n) (flat_map sp_outputs l1)).
  { apply Forall_forall. intros x I. apply in_flat_map in I. destruct I as (s & I & J). destruct (O1 s I) as [Q|Q]; rewrite Q in J; [destruct J|]. destruct J as [J|[]]. exact J. }
  split; [|split; [|split; [|split]]].
  - intros s. rewrite in_app_iff, S1', S2. split.
    + intros [[(W & ->)|L]|[(W & _)|(m & cs' & ds' & I & R)]].
      * left. split; [exact W|split; [discriminate|reflexivity]].
      * right. exists n, cs, ds. split; [left; reflexivity|]. split; [exact C|split; [exact D|exact L]].
      * exfalso. apply W. reflexivity.
      * right. exists m, cs', ds'. split; [right; exact I|exact R].
    + intros [(W & _ & ->)|(m & cs' & ds' & [<-|I] & C' & D' & L)].
      * left. left. split; [exact W|reflexivity].
      * left. right. rewrite (configs_of_fun _ _ _ _ (output_configs_given _ _ _ _ C) (output_configs_given _ _ _ _ C')),
          (configs_of_fun _ _ _ _ (output_configs_given _ _ _ _ D) (output_configs_given _ _ _ _ D')). exact L.
      * right. right. exists m, cs', ds'. auto.
  - rewrite filter_app, app_length, (F2 eq_refl). destruct F1 as [F1|F1]; [|discriminate]. change (filter no_outputs l1) with (filter (fun s => match sp_outputs s with [] => true | _ => false end) l1).
    rewrite F1. cbn [length]. destruct count as [[]|]; lia.
  - intros ->. rewrite filter_app, (F2 eq_refl). destruct F1 as [F1|F1]; [|discriminate]. apply length_zero_iff_nil in F1. change (filter no_outputs l1) with (filter (fun s => match sp_outputs s with [] => true | _ => false end) l1).
    rewrite F1. reflexivity.
  - intros R RR SS. inversion SS as [|? ? SS' FA]; subst. specialize (O2 R RR SS'). rewrite flat_map_app.
    clear -FL O2 X2 FA RR. induction (flat_map sp_outputs l1) as [|x l IHl]; [exact O2|]. inversion FL as [|? ? <- FL']; subst. cbn [app]. constructor; [apply IHl, FL'|].
    apply Forall_forall. intros y I. apply in_app_or in I. destruct I as [I|I].
    + rewrite Forall_forall in FL'. rewrite <- (FL' y I). apply RR.
    + rewrite Forall_forall in FA. apply FA, X2, I.
  - intros x I. rewrite flat_map_app in I. apply in_app_or in I. destruct I as [I|I]; [left; rewrite Forall_forall in FL; apply FL, I|right; apply X2, I].
Qed.

Lemma ascii_compare_N a b : Ascii.compare a b = N.compare (N_of_ascii a) (N_of_ascii b).
Proof. reflexivity. Qed.

Lemma string_leb_trans : forall x y z, String.leb x y = true -> String.leb y z = true -> String.leb x z = true.
Proof.
  induction x as [|a x IH]; intros [|b y] [|c z]; unfold String.leb in *; cbn [String.compare]; try congruence.
  rewrite !ascii_compare_N. intros H1 H2.
  destruct (N.compare_spec (N_of_ascii a) (N_of_ascii b)) as [E1|E1|E1]; try discriminate H1;
  destruct (N.compare_spec (N_of_ascii b) (N_of_ascii c)) as [E2|E2|E2]; try discriminate H2;
  destruct (N.compare_spec (N_of_ascii a) (N_of_ascii c)) as [E3|E3|E3]; try reflexivity; try (exfalso; lia).
  apply (IH y z H1 H2).
Qed.

Lemma string_leb_total x y : String.leb x y = false -> String.leb y x = true.
Proof. intros H. destruct (String.leb_total x y) as [E|E]; [congruence|exact E]. Qed.

Lemma string_leb_refl x : String.leb x x = true.
Proof. destruct (String.leb_total x x); assumption. Qed.

Lemma C243_outputs_pf :
  forall e dm du o count weighted,
    (forall n, In n (map fst dm ++ map fst du) -> exists cs ds, output_configs e dm n cs /\ output_configs e du n ds) ->
    exists l, specs_from_metrics e (Some (MetricDict dm)) (Some (MetricDict du)) [] o count weighted = Ok l /\
      (forall s, In s l <-> (wanted count /\ map fst dm ++ map fst du <> [] /\ s = count_spec o) \/
         exists n cs ds, In n (map fst dm ++ map fst du) /\ output_configs e dm n cs /\ output_configs e du n ds /\
           listed_spec cs ds [n] (of_one_output o) (Some false) weighted s) /\
      (length (filter no_outputs l) <= 1)%nat /\ StronglySorted (fun a b => String.leb a b = true) (flat_map sp_outputs l).
Proof.
  intros e dm du o count weighted H. unfold specs_from_metrics. cbn [is_dict set_map by_output].
  replace (truthy_arg (Some (MetricDict dm)) && truthy_arg (Some (MetricDict du)) && negb (Bool.eqb true true)) with false by (rewrite andb_false_r; reflexivity).
  cbn [andb orb]. set (names := py_sorted String.leb (dedup String.eqb (dkeys dm ++ dkeys du))).
  assert (I : forall n, In n names <-> In n (map fst dm ++ map fst du)).
  { intros n. unfold names. split; intros J.
    - apply (Permutation_in _ (py_sorted_perm String.leb _)) in J. rewrite (dedup_In _ String.eqb_eq) in J. exact J.
    - apply (Permutation_in _ (Permutation_sym (py_sorted_perm String.leb _))). rewrite (dedup_In _ String.eqb_eq). exact J. }
  destruct (specs_of_outputs_ok e dm du o weighted names count) as (l & E & S & L & _ & O & _); [intros n J; apply H, I, J|].
  exists l. split; [exact E|]. split; [|split; [exact L|]].
  - intros s. rewrite S. assert (N : names <> [] <-> map fst dm ++ map fst du <> []).
    { split; intros NE Z.
      - destruct names as [|x names']; [congruence|]. assert (J : In x (map fst dm ++ map fst du)) by (apply I; left; reflexivity). rewrite Z in J. destruct J.
      - destruct (map fst dm ++ map fst du) as [|x t]; [congruence|]. assert (J : In x names) by (apply I; left; reflexivity). rewrite Z in J. destruct J. }
    rewrite N. split; (intros [A|(n & cs & ds & J & R)]; [left; exact A|right; exists n, cs, ds; split; [apply I; exact J|exact R]]).
  - apply O; [apply string_leb_refl|]. apply py_sorted_sorted; [apply string_leb_total|apply string_leb_trans].
Qed.

Lemma C243_options_refuted_pf :
  exists e d o l, so_query_key o = "query" /\ so_output_weights o <> [] /\
    specs_from_metrics e (Some (MetricDict d)) None [] o None None = Ok l /\ (exists s, In s l /\ sp_metrics s = [Config "AUC" "" []]) /\
    forall s, In s l -> sp_query_key s = "" /\ sp_output_weights s = [].
Proof.
  exists example_env, [("a", [Metric TfmaMetric "AUC" "tfma.metrics" "AUC" []])], (SpecOptions [] [("a", 1%Qc)] None None "query"). eexists.
  split; [reflexivity|]. split; [discriminate|]. split; [reflexivity|]. split.
  - eexists. split; [right; right; left; reflexivity|reflexivity].
  - intros s [<-|[<-|[<-|[]]]]; split; reflexivity.
Qed.

Definition has_metrics (a : option metrics_arg) : Prop :=
  exists d, a = Some (MetricDict d) /\ d <> [] \/ exists l, a = Some (MetricList l) /\ l <> [].

Definition dict_given (a : option metrics_arg) : Prop := exists d, a = Some (MetricDict d).

(** Metrics by output together with output_names, and metrics by output in one argument only while the
    other has metrics *)

Definition ill_combined (metrics unweighted : option metrics_arg) (outputs : list string) : Prop :=
  (dict_given metrics /\ outputs <> []) \/
  (has_metrics metrics /\ has_metrics unweighted /\ ~ (dict_given metrics <-> dict_given unweighted)).

Lemma is_dict_given a : is_dict a = true <-> dict_given a.
Proof. unfold dict_given. destruct a as [[l|d]|]; cbn; split; try discriminate; try (intros [d' H]; discriminate); intros _; [exists d; reflexivity|reflexivity]. Qed.

Lemma truthy_given a : truthy_arg a = true <-> has_metrics a.
Proof.
  unfold has_metrics. destruct a as [[[|m l]|[|x d]]|]; cbn; split; try discriminate; try reflexivity.
  - intros [d [(H & _)|(l & H & N)]]; [discriminate|]. injection H as <-. congruence.
  - intros _. exists []. right. exists (m :: l). split; [reflexivity|discriminate].
  - intros [d [(H & N)|(l & H & N)]]; [injection H as <-; congruence|discriminate].
  - intros _. exists (x :: d). left. split; [reflexivity|discriminate].
  - intros [d [(H & _)|(l & H & N)]]; discriminate.
Qed.

Lemma C244_refused_pf :
  forall e metrics unweighted outputs o count weighted, ill_combined metrics unweighted outputs ->
    specs_from_metrics e metrics unweighted outputs o count weighted = Err ValueError.
Proof.
  intros e metrics unweighted outputs o count weighted [(D & N)|(H1 & H2 & N)]; unfold specs_from_metrics.
  - apply is_dict_given in D. rewrite D. destruct outputs; [congruence|]. reflexivity.
  - destruct (is_dict metrics && set_map outputs); [reflexivity|]. apply truthy_given in H1. apply truthy_given in H2. rewrite H1, H2. cbn [andb].
    rewrite <- !is_dict_given in N. destruct (is_dict metrics); destruct (is_dict unweighted); cbn [Bool.eqb negb]; try reflexivity; exfalso; apply N; tauto.
Qed.

Lemma configs_exist e ms : (forall m, In m ms -> is_ok (config_from_metric e m) = true) -> exists cs, configs_of e ms cs.
Proof.
  induction ms as [|m ms IH]; intros H; [exists []; constructor|]. destruct IH as [cs F]; [intros x I; apply H; right; exact I|].
  specialize (H m (or_introl eq_refl)). destruct (config_from_metric e m) as [c|] eqn:E; [|discriminate]. exists (c :: cs). constructor; assumption.
Qed.

Definition all_metrics (a : option metrics_arg) : list metric :=
  match a with Some (MetricList l) => l | Some (MetricDict d) => concat (map snd d) | None => [] end.

Lemma C244_accepted_pf :
  forall e metrics unweighted outputs o count weighted, ~ ill_combined metrics unweighted outputs ->
    (forall m, In m (all_metrics metrics ++ all_metrics unweighted) -> is_ok (config_from_metric e m) = true) ->
    is_ok (specs_from_metrics e metrics unweighted outputs o count weighted) = true.
Proof.
  intros e metrics unweighted outputs o count weighted NI C. unfold specs_from_metrics.
  destruct (is_dict metrics && set_map outputs) eqn:E1.
  { exfalso. apply NI. left. apply andb_true_iff in E1. destruct E1 as [A B]. split; [apply is_dict_given, A|]. destruct outputs; [discriminate B|discriminate]. }
  destruct (truthy_arg metrics && truthy_arg unweighted && negb (Bool.eqb (is_dict metrics) (is_dict unweighted))) eqn:E2.
  { exfalso. apply NI. right. rewrite !andb_true_iff in E2. destruct E2 as [[A B] D]. split; [apply truthy_given, A|split; [apply truthy_given, B|]].
    rewrite <- !is_dict_given. destruct (is_dict metrics); destruct (is_dict unweighted); try discriminate D; intuition discriminate. }
  destruct (is_dict metrics || is_dict unweighted).
  - assert (G : forall a n, (forall m, In m (all_metrics a) -> is_ok (config_from_metric e m) = true) -> exists cs, output_configs e (by_output a) n cs).
    { intros a n H. destruct (dget String.eqb (by_output a) n) as [ms|] eqn:E; [|exists []; right; split; [exact E|reflexivity]].
      destruct (configs_exist e ms) as [cs F]; [|exists cs; left; exists ms; split; [exact E|exact F]].
      intros m I. apply H. destruct a as [[l|d]|]; try discriminate E. cbn [by_output] in E. apply (dget_In _ String.eqb_eq) in E. cbn [all_metrics].
      apply in_concat. exists ms. split; [apply (in_map snd) in E; exact E|exact I]. }
    destruct (specs_of_outputs_ok e (by_output metrics) (by_output unweighted) o weighted
      (py_sorted String.leb (dedup String.eqb (dkeys (by_output metrics) ++ dkeys (by_output unweighted)))) count) as (l & -> & _); [|reflexivity].
    intros n _. destruct (G metrics n) as [cs A]; [intros m I; apply C, in_or_app; left; exact I|].
    destruct (G unweighted n) as [ds B]; [intros m I; apply C, in_or_app; right; exact I|]. exists cs, ds. auto.
  - destruct (configs_exist e (as_list metrics)) as [cs F1].
    { intros m I. apply C, in_or_app. left. destruct metrics as [[l|d]|]; try destruct I; exact I || idtac; assumption. }
    destruct (configs_exist e (as_list unweighted)) as [ds F2].
    { intros m I. apply C, in_or_app. right. destruct unweighted as [[l|d]|]; try destruct I; exact I || idtac; assumption. }
    destruct (specs_of_lists_ok e _ _ cs ds outputs o count weighted F1 F2) as (l & -> & _). reflexivity.
Qed.

Lemma C244_names_refuted_pf :
  exists e d o l, specs_from_metrics e None (Some (MetricDict d)) ["x"] o None None = Ok l /\ forall s, In s l -> ~ In "x" (sp_outputs s).
Proof.
  exists example_env, [("a", [Metric TfmaMetric "AUC" "tfma.metrics" "AUC" []])], (SpecOptions [] [] None None ""). eexists. split; [reflexivity|].
  intros s [<-|[<-|[<-|[]]]]; cbn; intuition discriminate.
Qed.

(** A config: its class and its settings but dtype *)

Definition view (c : config) : string * list (string * json) := (cf_class c, filter (fun kv => negb (String.eqb (fst kv) "dtype")) (cf_settings c)).

Definition named (class name : string) : string * list (string * json) := (class, [("name", JStr name)]).

Lemma keras_config e class name : In class ["Accuracy"; "MeanSquaredError"; "BinaryCrossentropy"; "SparseCategoricalCrossentropy"; "SparseCategoricalAccuracy"; "CategoricalCrossentropy"; "CategoricalAccuracy"] ->
  exists c, config_from_metric e (keras class name) = Ok c /\ view c = named class name.
Proof.
  intros I. unfold config_from_metric. cbn [keras mt_kind].
  assert (S : serialize_tf_metric (keras class name) = Ok (Config class "tf_keras.metrics" [("name", JStr name); ("dtype", JStr "float32")])).
  { cbn [In] in I. repeat (destruct I as [<-|I]; [reflexivity|]). destruct I. }
  fold (keras class name). rewrite S. cbn [bind]. destruct (is_supported e (keras class name)); [|eexists; split; reflexivity].
  eexists. split; [reflexivity|]. cbn [In] in I. repeat (destruct I as [<-|I]; [reflexivity|]). destruct I.
Qed.

Lemma tfma_config e class name s : config_from_metric e (tfma class name s) = Ok (Config class "" (("name", JStr name) :: s)).
Proof. reflexivity. Qed.

Lemma configs_app e a b cs ds : configs_of e a cs -> configs_of e b ds -> configs_of e (a ++ b) (cs ++ ds).
Proof. apply Forall2_app. Qed.

(** The one spec of metrics in the list of a call with a list of metrics *)

Lemma one_list e ms cs outputs o : configs_of e ms cs -> ms <> [] ->
  exists l, specs_from_metrics e (Some (MetricList ms)) None outputs o None None = Ok l /\
    In (Spec cs (so_models o) outputs (so_output_weights o) (so_binarize o) (so_aggregate o) None (so_query_key o)) l /\ In (count_spec o) l /\
    l = [count_spec o; Spec [weighted_example_count_config] (so_models o) outputs (so_output_weights o) None None (Some (true, false)) "";
         Spec cs (so_models o) outputs (so_output_weights o) (so_binarize o) (so_aggregate o) None (so_query_key o)].
Proof.
  intros F N. eexists. split.
  - unfold specs_from_metrics. cbn [is_dict andb orb as_list truthy_arg]. rewrite andb_false_r. cbn [andb]. unfold specs_of_lists.
    rewrite (mapM_configs _ _ _ F). destruct ms; [congruence|]. reflexivity.
  - cbn [example_count_specs app]. split; [right; right; left; reflexivity|]. split; [left; reflexivity|reflexivity].
Qed.

Lemma C245_regression_pf :
  forall e models outputs weights losses lo hi cs,
    match losses with None => map view cs = [named "MeanSquaredError" "mse"] | Some ls => configs_of e ls cs end ->
    exists l s, default_regression_specs e models outputs weights losses lo hi = Ok l /\ In s l /\
      (forall s', In s' l -> s' = s \/ map cf_class (sp_metrics s') = ["ExampleCount"] \/ map cf_class (sp_metrics s') = ["WeightedExampleCount"]) /\
      sp_models s = models /\ sp_outputs s = outputs /\ sp_output_weights s = weights /\ sp_binarize s = None /\ sp_aggregate s = None /\ sp_example_weights s = None /\
      map view (sp_metrics s) = [named "Accuracy" "accuracy"; named "MeanLabel" "mean_label"; named "MeanPrediction" "mean_prediction"; named "Calibration" "calibration"] ++
        map view cs ++
        match lo, hi with Some a, Some b => [("CalibrationPlot", [("name", JStr "calibration_plot"); ("left", JNum a); ("right", JNum b)])] | _, _ => [] end.
Proof.
  intros e models outputs weights losses lo hi cs H.
  destruct (keras_config e "Accuracy" "accuracy") as (c1 & E1 & V1); [cbn; tauto|].
  destruct (keras_config e "MeanSquaredError" "mse") as (c2 & E2 & V2); [cbn; tauto|].
  assert (L : exists cs', configs_of e (match losses with Some l => l | None => [keras "MeanSquaredError" "mse"] end) cs' /\ map view cs' = map view cs).
  { destruct losses as [ls|]; [exists cs; auto|]. exists [c2]. split; [constructor; [exact E2|constructor]|]. cbn [map]. rewrite V2, H. reflexivity. }
  destruct L as (cs' & F & V).
  assert (P : exists ps, configs_of e (match lo, hi with Some a, Some b => [tfma "CalibrationPlot" "calibration_plot" [("left", JNum a); ("right", JNum b)]] | _, _ => [] end) ps /\
    map view ps = match lo, hi with Some a, Some b => [("CalibrationPlot", [("name", JStr "calibration_plot"); ("left", JNum a); ("right", JNum b)])] | _, _ => [] end).
  { destruct lo as [a|]; [destruct hi as [b|]|]; [|exists []; split; [constructor|reflexivity]|exists []; split; [constructor|reflexivity]].
    eexists. split; [constructor; [apply tfma_config|constructor]|reflexivity]. }
  destruct P as (ps & FP & VP).
  destruct (one_list e ([keras "Accuracy" "accuracy"; tfma "MeanLabel" "mean_label" []; tfma "MeanPrediction" "mean_prediction" []; tfma "Calibration" "calibration" []] ++
      match losses with Some l => l | None => [keras "MeanSquaredError" "mse"] end ++
      match lo, hi with Some a, Some b => [tfma "CalibrationPlot" "calibration_plot" [("left", JNum a); ("right", JNum b)]] | _, _ => [] end)
    ([c1; Config "MeanLabel" "" [("name", JStr "mean_label")]; Config "MeanPrediction" "" [("name", JStr "mean_prediction")]; Config "Calibration" "" [("name", JStr "calibration")]] ++ cs' ++ ps)
    outputs (SpecOptions models weights None None "")) as (l & E & I & _ & EL).
  - apply configs_app; [|apply configs_app; assumption]. constructor; [exact E1|]. repeat (constructor; [apply tfma_config|]). constructor.
  - discriminate.
  - exists l. eexists. split; [exact E|]. split; [exact I|]. split.
    + intros s' J. rewrite EL in J. destruct J as [<-|[<-|[<-|[]]]]; [right; left; reflexivity|right; right; reflexivity|left; reflexivity].
    + cbn [sp_models sp_outputs sp_output_weights sp_binarize sp_aggregate sp_example_weights sp_metrics so_models so_output_weights so_binarize so_aggregate].
      repeat (split; [reflexivity|]). rewrite !map_app, V, VP. cbn [map]. rewrite V1. reflexivity.
Qed.

Definition binary_views (loss : bool) : list (string * list (string * json)) :=
  [named "BinaryAccuracy" "binary_accuracy"; ("AUC", [("name", JStr "auc"); ("num_thresholds", JNum (qz 10000))]);
   ("AUC", [("name", JStr "auc_precison_recall"); ("curve", JStr "PR"); ("num_thresholds", JNum (qz 10000))]);
   named "Precision" "precision"; named "Recall" "recall"; named "MeanLabel" "mean_label"; named "MeanPrediction" "mean_prediction";
   named "Calibration" "calibration"; named "ConfusionMatrixPlot" "confusion_matrix_plot"; named "CalibrationPlot" "calibration_plot"] ++
  (if loss then [named "BinaryCrossentropy" "loss"] else []).

Lemma binary_configs e loss : exists cs, configs_of e (binary_metrics loss) cs /\ map view cs = binary_views loss.
Proof.
  destruct (keras_config e "BinaryCrossentropy" "loss") as (c & E & V); [cbn; tauto|].
  assert (T : exists cs, configs_of e (binary_metrics false) cs /\ map view cs = binary_views false).
  { eexists. split; [unfold binary_metrics; cbn [app]; repeat (constructor; [apply tfma_config|]); constructor|reflexivity]. }
  destruct T as (cs & F & VS). destruct loss; [|exists cs; auto].
  exists (cs ++ [c]). split.
  - change (binary_metrics true) with (binary_metrics false ++ [keras "BinaryCrossentropy" "loss"]). apply configs_app; [exact F|]. constructor; [exact E|constructor].
  - rewrite map_app, VS. cbn [map]. rewrite V. reflexivity.
Qed.

Lemma C245_binary_pf :
  forall e models outputs weights bin agg loss, exists l s,
    default_binary_classification_specs e models outputs weights bin agg loss = Ok l /\ In s l /\
    (forall s', In s' l -> s' = s \/ map cf_class (sp_metrics s') = ["ExampleCount"] \/ map cf_class (sp_metrics s') = ["WeightedExampleCount"]) /\
    sp_models s = models /\ sp_outputs s = outputs /\ sp_output_weights s = weights /\ sp_binarize s = bin /\ sp_aggregate s = agg /\ sp_example_weights s = None /\
    map view (sp_metrics s) = binary_views loss.
Proof.
  intros e models outputs weights bin agg loss. destruct (binary_configs e loss) as (cs & F & V).
  destruct (one_list e (binary_metrics loss) cs outputs (SpecOptions models weights bin agg "") F) as (l & E & I & _ & EL); [discriminate|].
  exists l. eexists. split; [exact E|]. split; [exact I|]. split.
  - intros s' J. rewrite EL in J. destruct J as [<-|[<-|[<-|[]]]]; [right; left; reflexivity|right; right; reflexivity|left; reflexivity].
  - cbn [sp_models sp_outputs sp_output_weights sp_binarize sp_aggregate sp_example_weights sp_metrics so_models so_output_weights so_binarize so_aggregate].
    repeat (split; [reflexivity|]). exact V.
Qed.

Definition top_k_views (k : Z) : list (string * list (string * json)) :=
  [("Precision", [("name", JStr "precision"); ("top_k", JNum (qz k))]); ("Recall", [("name", JStr "recall"); ("top_k", JNum (qz k))])].

Lemma C245_multi_class_pf :
  forall e models outputs weights bin agg sparse, exists l all each,
    default_multi_class_classification_specs e models outputs weights bin agg sparse = Ok l /\ In all l /\ In each l /\
    (forall s, In s l -> s = all \/ s = each \/ map cf_class (sp_metrics s) = ["ExampleCount"] \/ map cf_class (sp_metrics s) = ["WeightedExampleCount"]) /\
    (forall s, s = all \/ s = each -> sp_models s = models /\ sp_outputs s = outputs /\ sp_output_weights s = weights /\ sp_example_weights s = None) /\
    sp_binarize all = None /\ sp_aggregate all = None /\
    map view (sp_metrics all) =
      (if sparse then [named "SparseCategoricalCrossentropy" "loss"; named "SparseCategoricalAccuracy" "accuracy"]
       else [named "CategoricalCrossentropy" "loss"; named "CategoricalAccuracy" "accuracy"]) ++
      [named "MultiClassConfusionMatrixPlot" "multi_class_confusion_matrix_plot"] ++
      match bin with Some b => concat (map top_k_views (b_top_k b)) | None => [] end /\
    map view (sp_metrics each) = binary_views true /\
    match bin, sp_binarize each with
    | Some b, Some b' => b_class_ids b' = b_class_ids b /\ b_k b' = b_k b /\ b_top_k b' = []
    | None, None => True
    | _, _ => False
    end /\
    match agg with Some a => sp_aggregate each = Some a | None => exists a, sp_aggregate each = Some a /\ a_type a = Some (Micro, true) /\ a_class_weights a = [] /\ a_top_k a = None end.
Proof.
  intros e models outputs weights bin agg sparse. unfold default_multi_class_classification_specs.
  set (bin' := match bin with Some b => Some (Binarize (b_class_ids b) (b_k b) []) | None => None end).
  set (agg' := match agg with Some a => a | None => Aggregate (Some (Micro, true)) [] None end).
  destruct (binary_configs e true) as (ds & FD & VD).
  destruct (one_list e (binary_metrics true) ds outputs (SpecOptions models weights bin' (Some agg') "") FD) as (l2 & E2 & I2 & _ & EL2); [discriminate|].
  destruct (keras_config e "SparseCategoricalCrossentropy" "loss") as (c1 & K1 & V1); [cbn; tauto|].
  destruct (keras_config e "SparseCategoricalAccuracy" "accuracy") as (c2 & K2 & V2); [cbn; tauto|].
  destruct (keras_config e "CategoricalCrossentropy" "loss") as (c3 & K3 & V3); [cbn; tauto|].
  destruct (keras_config e "CategoricalAccuracy" "accuracy") as (c4 & K4 & V4); [cbn; tauto|].
  assert (A : exists cs, configs_of e (if sparse then [keras "SparseCategoricalCrossentropy" "loss"; keras "SparseCategoricalAccuracy" "accuracy"]
                  else [keras "CategoricalCrossentropy" "loss"; keras "CategoricalAccuracy" "accuracy"]) cs /\
      map view cs = if sparse then [named "SparseCategoricalCrossentropy" "loss"; named "SparseCategoricalAccuracy" "accuracy"]
       else [named "CategoricalCrossentropy" "loss"; named "CategoricalAccuracy" "accuracy"]).
  { destruct sparse; [exists [c1; c2]|exists [c3; c4]]; (split; [constructor; [assumption|constructor; [assumption|constructor]]|cbn [map]; congruence]). }
  destruct A as (as_ & FA & VA).
  assert (B : exists cs, configs_of e (match bin with Some b => flat_map top_k_metrics (b_top_k b) | None => [] end) cs /\
      map view cs = match bin with Some b => concat (map top_k_views (b_top_k b)) | None => [] end).
  { destruct bin as [b|]; [|exists []; split; [constructor|reflexivity]]. induction (b_top_k b) as [|k ks IH]; [exists []; split; [constructor|reflexivity]|].
    destruct IH as (cs & F & V). exists ([Config "Precision" "" [("name", JStr "precision"); ("top_k", JNum (qz k))]; Config "Recall" "" [("name", JStr "recall"); ("top_k", JNum (qz k))]] ++ cs).
    split; [cbn [flat_map]; apply configs_app; [|exact F]; constructor; [reflexivity|constructor; [reflexivity|constructor]]|]. rewrite map_app, V. reflexivity. }
  destruct B as (bs & FB & VB).
  set (p := Config "MultiClassConfusionMatrixPlot" "" [("name", JStr "multi_class_confusion_matrix_plot")]).
  destruct (one_list e ((if sparse then [keras "SparseCategoricalCrossentropy" "loss"; keras "SparseCategoricalAccuracy" "accuracy"]
                  else [keras "CategoricalCrossentropy" "loss"; keras "CategoricalAccuracy" "accuracy"]) ++
                 [tfma "MultiClassConfusionMatrixPlot" "multi_class_confusion_matrix_plot" []] ++
                 match bin with Some b => flat_map top_k_metrics (b_top_k b) | None => [] end) (as_ ++ [p] ++ bs) outputs (SpecOptions models weights None None "")) as (l1 & E1 & I1 & _ & EL1).
  { apply configs_app; [exact FA|]. apply configs_app; [|exact FB]. constructor; [reflexivity|constructor]. }
  { destruct sparse; discriminate. }
  unfold default_binary_classification_specs. rewrite E1. cbn [bind]. rewrite E2. cbn [bind].
  eexists. eexists. eexists. split; [reflexivity|]. split; [apply in_or_app; left; exact I1|]. split; [apply in_or_app; right; exact I2|].
  split; [|split; [|split; [reflexivity|split; [reflexivity|split; [|split; [exact VD|split]]]]]].
  - intros s J. apply in_app_or in J. rewrite EL1, EL2 in J. destruct J as [[<-|[<-|[<-|[]]]]|[<-|[<-|[<-|[]]]]]; cbn [sp_metrics]; auto.
  - intros s [->| ->]; repeat split; reflexivity.
  - cbn [sp_metrics]. rewrite !map_app, VA, VB. reflexivity.
  - cbn [sp_binarize so_binarize]. unfold bin'. destruct bin as [b|]; [|exact Logic.I]. repeat split; reflexivity.
  - cbn [sp_aggregate so_aggregate]. unfold agg'. destruct agg as [a|]; [reflexivity|]. eexists. repeat split; reflexivity.
Qed.

Lemma C245_counts_refuted_pf :
  exists e s a b c, default_multi_class_classification_specs e [] [] [] None None true = Ok (a ++ s :: b ++ s :: c) /\ map cf_class (sp_metrics s) = ["ExampleCount"].
Proof.
  exists example_env, (count_spec (SpecOptions [] [] None None "")), [].
  destruct (C245_multi_class_pf example_env [] [] [] None None true) as (l & _ & _ & E & _).
  destruct l as [|x0 [|x1 [|x2 [|x3 [|x4 [|x5 [|]]]]]]]; try (vm_compute in E; discriminate E).
  exists [x1; x2], [x4; x5]. split; [|reflexivity]. rewrite E. f_equal. vm_compute in E. injection E as <- <- <- <- <- <-. reflexivity.
Qed.

(** A model of the spec: any model if it names none, a model it names, or the only model for the empty name *)

Definition model_of_spec (c : eval_config) (s : spec) (m : model_spec) : Prop :=
  In m (e_models c) /\ (sp_models s = [] \/ In (m_name m) (sp_models s) \/ (e_models c = [m] /\ In "" (sp_models s))).

Definition has_weights (s : spec) (m : model_spec) : Prop :=
  m_weight_key m <> "" \/ exists o, In o (sp_outputs s) /\ In o (map fst (m_weight_keys m)).

Lemma has_weights_key s m : has_example_weight_key (sp_outputs s) m = true <-> has_weights s m.
Proof.
  unfold has_example_weight_key, has_weights, set_str. rewrite orb_true_iff, negb_true_iff, String.eqb_neq, existsb_exists.
  split; (intros [H|(o & I & D)]; [left; exact H|right; exists o; split; [exact I|apply (dmem_In _ String.eqb_eq); exact D]]).
Qed.

Lemma C246_default_pf :
  forall c s, NoDup (map m_name (e_models c)) ->
    (example_weighted_default c s = true <-> exists m, model_of_spec c s m /\ has_weights s m).
Proof.
  intros c s ND. unfold example_weighted_default, model_of_spec. destruct (sp_models s) as [|n ns] eqn:ES.
  - rewrite existsb_exists. split; [intros (m & I & H)|intros (m & (I & _) & H)]; exists m; (split; [auto|]); apply has_weights_key; exact H.
  - assert (NE : sp_models s <> []) by congruence. rewrite <- ES. clear n ns ES. rewrite existsb_exists.
    assert (G : forall n m, get_model_spec c n = Some m <-> In m (e_models c) /\ (m_name m = n \/ (e_models c = [m] /\ n = ""))).
    { intros n m. unfold get_model_spec.
      assert (F : find (fun m => String.eqb (m_name m) n) (e_models c) = Some m <-> In m (e_models c) /\ m_name m = n).
      { split; [intros E; apply find_some in E; rewrite String.eqb_eq in E; exact E|]. intros [I <-]. revert ND I.
        induction (e_models c) as [|x l IH]; intros ND I; [destruct I|]. cbn [find]. inversion ND as [|? ? NI ND']; subst. destruct I as [->|I]; [rewrite String.eqb_refl; reflexivity|].
        destruct (String.eqb (m_name x) (m_name m)) eqn:E; [|apply IH; assumption]. apply String.eqb_eq in E. exfalso. apply NI. rewrite E. apply in_map, I. }
      destruct (e_models c) as [|x [|y l]].
      - split; [discriminate|intros [[] _]].
      - unfold set_str. destruct (String.eqb n "") eqn:E; cbn [negb].
        + apply String.eqb_eq in E. subst. split; [intros H; injection H as <-; split; [left; reflexivity|right; auto]|intros [[->|[]] _]; reflexivity].
        + apply String.eqb_neq in E. destruct (String.eqb (m_name x) n) eqn:E2.
          * apply String.eqb_eq in E2. split; [intros H; injection H as <-; split; [left; reflexivity|left; exact E2]|intros [[->|[]] _]; reflexivity].
          * apply String.eqb_neq in E2. split; [discriminate|intros [[->|[]] [H|(_ & H)]]; congruence].
      - rewrite F. split; [tauto|]. intros [I [H|(H & _)]]; [auto|discriminate H]. }
    split.
    + intros (n & I & H). destruct (get_model_spec c n) as [m|] eqn:E; [|discriminate]. apply G in E. exists m. split; [|apply has_weights_key, H].
      destruct E as [J [<-|(E & ->)]]; auto.
    + intros (m & (J & [E|[I|(E & I)]]) & H).
      * contradiction.
      * exists (m_name m). split; [exact I|]. assert (E : get_model_spec c (m_name m) = Some m) by (apply G; auto). rewrite E. apply has_weights_key, H.
      * exists "". split; [exact I|]. assert (E' : get_model_spec c "" = Some m) by (apply G; auto). rewrite E'. apply has_weights_key, H.
Qed.

Lemma C246_options_pf :
  forall c s, (forall w u, sp_example_weights s = Some (w, u) ->
      (In true (weight_options c s) <-> w = true) /\ (In false (weight_options c s) <-> u = true) /\ NoDup (weight_options c s)) /\
    (sp_example_weights s = None -> weight_options c s = [example_weighted_default c s]).
Proof.
  intros c s. unfold weight_options. split.
  - intros w u ->. destruct w; destruct u; cbn [app In]; (split; [intuition discriminate|split; [intuition discriminate|]]);
      repeat (constructor; [cbn; intuition discriminate|]); constructor.
  - intros ->. reflexivity.
Qed.

Lemma C246_outputs_refuted_pf :
  exists c s m, e_models c = [m] /\ m_weight_keys m = [("head", "weight")] /\ sp_models s = [] /\ sp_outputs s = [] /\ sp_example_weights s = None /\
    weight_options c s = [false].
Proof.
  exists (EvalConfig [ModelSpec "" "" [] "" [] "" [("head", "weight")] false ""] [] false UnknownMethod ""), (Spec [example_count_config] [] [] [] None None None ""),
    (ModelSpec "" "" [] "" [] "" [("head", "weight")] false ""). repeat split; reflexivity.
Qed.
