(* Facts and tactics about Base.v. *)
From Coq Require Import String.
From Verif Require Import Base.
From Coq Require Import Sorting.Sorted.

(* ------------------------------------------------------------------ *)
(** * Decision of linear (in)equalities over Qc *)

Lemma Qc_leb_le x y : Qc_leb x y = true <-> (x <= y)%Qc.
Proof. unfold Qc_leb, Qcle. apply Qle_bool_iff. Qed.
Lemma Qc_leb_gt x y : Qc_leb x y = false <-> (y < x)%Qc.
Proof.
  split; intro H.
  - destruct (Qclt_le_dec y x) as [L|L]; auto.
    apply Qc_leb_le in L. congruence.
  - destruct (Qc_leb x y) eqn:E; auto. apply Qc_leb_le in E.
    exfalso. apply (Qcle_not_lt _ _ E H).
Qed.
Lemma Qc_ltb_lt x y : Qc_ltb x y = true <-> (x < y)%Qc.
Proof. unfold Qc_ltb. rewrite negb_true_iff. apply Qc_leb_gt. Qed.
Lemma Qc_ltb_ge x y : Qc_ltb x y = false <-> (y <= x)%Qc.
Proof. unfold Qc_ltb. rewrite negb_false_iff. apply Qc_leb_le. Qed.
Lemma Qc_eqb_eq x y : Qc_eqb x y = true <-> x = y.
Proof.
  unfold Qc_eqb. rewrite Qeq_bool_iff. split; intro H.
  - apply Qc_is_canon; exact H.
  - subst; reflexivity.
Qed.
Lemma Qc_eqb_neq x y : Qc_eqb x y = false <-> x <> y.
Proof.
  split; intro H.
  - intro E. apply Qc_eqb_eq in E. congruence.
  - destruct (Qc_eqb x y) eqn:E; auto. apply Qc_eqb_eq in E. contradiction.
Qed.
Lemma Qc_eqb_refl x : Qc_eqb x x = true.
Proof. apply Qc_eqb_eq; reflexivity. Qed.

Lemma this_plus x y : (this (x + y)%Qc == this x + this y)%Q.
Proof. apply Qred_correct. Qed.
Lemma this_mult x y : (this (x * y)%Qc == this x * this y)%Q.
Proof. apply Qred_correct. Qed.
Lemma this_opp x : (this (- x)%Qc == - this x)%Q.
Proof. apply Qred_correct. Qed.
Lemma this_minus x y : (this (x - y)%Qc == this x - this y)%Q.
Proof. unfold Qcminus. rewrite this_plus, this_opp. reflexivity. Qed.
Lemma this_Q2Qc q : (this (Q2Qc q) == q)%Q.
Proof. apply Qred_correct. Qed.
Lemma this_inv x : (this (/ x)%Qc == / this x)%Q.
Proof. apply Qred_correct. Qed.
Lemma this_div x y : (this (x / y)%Qc == this x / this y)%Q.
Proof. unfold Qcdiv. rewrite this_mult, this_inv. reflexivity. Qed.
Lemma this_eq x y : x = y <-> (this x == this y)%Q.
Proof. split; intro H. subst; reflexivity. apply Qc_is_canon; exact H. Qed.

Lemma qz_this z : (this (qz z) == inject_Z z)%Q.
Proof. unfold qz. apply this_Q2Qc. Qed.

Ltac qc_bool :=
  repeat match goal with
  | H : Qc_leb _ _ = true |- _ => apply Qc_leb_le in H
  | H : Qc_leb _ _ = false |- _ => apply Qc_leb_gt in H
  | H : Qc_ltb _ _ = true |- _ => apply Qc_ltb_lt in H
  | H : Qc_ltb _ _ = false |- _ => apply Qc_ltb_ge in H
  | H : Qc_eqb _ _ = true |- _ => apply Qc_eqb_eq in H
  | H : Qc_eqb _ _ = false |- _ => apply Qc_eqb_neq in H
  | |- Qc_leb _ _ = true => apply Qc_leb_le
  | |- Qc_leb _ _ = false => apply Qc_leb_gt
  | |- Qc_ltb _ _ = true => apply Qc_ltb_lt
  | |- Qc_ltb _ _ = false => apply Qc_ltb_ge
  | |- Qc_eqb _ _ = true => apply Qc_eqb_eq
  | |- Qc_eqb _ _ = false => apply Qc_eqb_neq
  end.

Ltac qc_push :=
  repeat match goal with
  | H : _ /\ _ |- _ => destruct H
  end;
  repeat match goal with
  | H : @eq Qc _ _ |- _ => apply this_eq in H
  | H : (_ <= _)%Qc |- _ => unfold Qcle in H
  | H : (_ < _)%Qc |- _ => unfold Qclt in H
  | |- @eq Qc _ _ => apply this_eq
  | |- (_ <= _)%Qc => unfold Qcle
  | |- (_ < _)%Qc => unfold Qclt
  end;
  repeat match goal with
  | H : _ |- _ => progress (rewrite ?this_plus, ?this_minus, ?this_mult, ?this_opp, ?this_Q2Qc in H)
  end;
  repeat (progress rewrite ?this_plus, ?this_minus, ?this_mult, ?this_opp, ?this_Q2Qc).

Ltac qc_clean := change (this 0%Qc) with 0%Q in *; change (this 1%Qc) with 1%Q in *.

Ltac qc_lra := qc_bool; qc_push; qc_clean; lra.
Ltac qc_nra := qc_bool; qc_push; qc_clean; nra.

(* ------------------------------------------------------------------ *)
(** * Sums *)

Lemma qsum_app l1 l2 : qsum (l1 ++ l2) = (qsum l1 + qsum l2)%Qc.
Proof. induction l1; simpl; [ring | rewrite IHl1; ring]. Qed.
Lemma qsum_perm l1 l2 : Permutation l1 l2 -> qsum l1 = qsum l2.
Proof. induction 1; simpl; [reflexivity|congruence|ring|congruence]. Qed.
Lemma qsum_map_plus {A} (f g : A -> Qc) l :
  qsum (map (fun x => f x + g x)%Qc l) = (qsum (map f l) + qsum (map g l))%Qc.
Proof. induction l; simpl; [ring | rewrite IHl; ring]. Qed.
Lemma qsum_map_scale {A} (f : A -> Qc) c l :
  qsum (map (fun x => c * f x)%Qc l) = (c * qsum (map f l))%Qc.
Proof. induction l; simpl; [ring | rewrite IHl; ring]. Qed.
Lemma qsum_map_ext {A} (f g : A -> Qc) l :
  (forall x, In x l -> f x = g x) -> qsum (map f l) = qsum (map g l).
Proof. intro H. f_equal. apply map_ext_in. exact H. Qed.
Lemma qsum_map_zero {A} (f : A -> Qc) l :
  (forall x, In x l -> f x = 0%Qc) -> qsum (map f l) = 0%Qc.
Proof.
  induction l; simpl; intro H; auto. rewrite H, IHl; auto.
Qed.
Lemma qsum_nonneg l : (forall x, In x l -> 0 <= x)%Qc -> (0 <= qsum l)%Qc.
Proof.
  induction l; simpl; intro H. apply Qcle_refl.
  assert (0 <= a)%Qc by auto. assert (0 <= qsum l)%Qc by auto. qc_lra.
Qed.
Lemma qsum_map_le {A} (f g : A -> Qc) l :
  (forall x, In x l -> f x <= g x)%Qc -> (qsum (map f l) <= qsum (map g l))%Qc.
Proof.
  induction l; simpl; intro H. apply Qcle_refl.
  assert (f a <= g a)%Qc by auto.
  assert (qsum (map f l) <= qsum (map g l))%Qc by auto. qc_lra.
Qed.
Lemma qsum_concat ls : qsum (concat ls) = qsum (map qsum ls).
Proof. induction ls; simpl; auto. rewrite qsum_app, IHls. reflexivity. Qed.
Lemma qsum_filter_split {A} (f : A -> Qc) (p : A -> bool) l :
  qsum (map f l) = (qsum (map f (filter p l)) + qsum (map f (filter (fun x => negb (p x)) l)))%Qc.
Proof.
  induction l; simpl. ring. rewrite IHl. destruct (p a); simpl; ring.
Qed.
Lemma qsum_map_if {A} (f : A -> Qc) (p : A -> bool) l :
  qsum (map (fun x => if p x then f x else 0%Qc) l) = qsum (map f (filter p l)).
Proof. induction l; simpl; auto. destruct (p a); simpl; rewrite IHl; ring. Qed.

Lemma fold_left_qplus {A} (f : A -> Qc) l a :
  fold_left (fun s x => s + f x)%Qc l a = (a + qsum (map f l))%Qc.
Proof. revert a; induction l; simpl; intro; [ring | rewrite IHl; ring]. Qed.

(* ------------------------------------------------------------------ *)
(** * Qc order *)

Lemma Qclt_not_eq' x y : (x < y)%Qc -> x <> y.
Proof. intros H E. subst. apply (Qcle_not_lt y y); auto. apply Qcle_refl. Qed.
Lemma Qcdiv_le_1 a b : (0 <= a)%Qc -> (a <= b)%Qc -> (0 < b)%Qc -> (a / b <= 1)%Qc.
Proof.
  intros. assert (b <> 0%Qc) by (intro; subst; qc_lra).
  destruct (Qclt_le_dec 1 (a/b)) as [L|L]; auto.
  assert (b * 1 < b * (a / b))%Qc.
  { rewrite !(Qcmult_comm b). apply Qcmult_lt_compat_r; auto. }
  rewrite Qcmult_div_r in H3 by auto. qc_lra.
Qed.
Lemma Qcdiv_nonneg a b : (0 <= a)%Qc -> (0 < b)%Qc -> (0 <= a / b)%Qc.
Proof.
  intros. assert (b <> 0%Qc) by (intro; subst; qc_lra).
  destruct (Qclt_le_dec (a/b) 0) as [L|L]; auto.
  assert (b * (a / b) < b * 0)%Qc.
  { rewrite !(Qcmult_comm b). apply Qcmult_lt_compat_r; auto. }
  rewrite Qcmult_div_r in H2 by auto. qc_lra.
Qed.
Lemma Qcdiv_le_compat a b c : (a <= b)%Qc -> (0 < c)%Qc -> (a / c <= b / c)%Qc.
Proof.
  intros. assert (c <> 0%Qc) by (intro; subst; qc_lra).
  destruct (Qclt_le_dec (b/c) (a/c)) as [L|L]; auto.
  assert (c * (b / c) < c * (a / c))%Qc.
  { rewrite !(Qcmult_comm c). apply Qcmult_lt_compat_r; auto. }
  rewrite !Qcmult_div_r in H2 by auto. qc_lra.
Qed.
Lemma Qcmult_nonneg a b : (0 <= a)%Qc -> (0 <= b)%Qc -> (0 <= a * b)%Qc.
Proof.
  intros Ha Hb. replace 0%Qc with (0 * b)%Qc by ring. apply Qcmult_le_compat_r; auto.
Qed.
Lemma qz_plus a b : qz (a + b) = (qz a + qz b)%Qc.
Proof.
  apply this_eq. rewrite this_plus, !qz_this. rewrite inject_Z_plus. reflexivity.
Qed.
Lemma qz_mult a b : qz (a * b) = (qz a * qz b)%Qc.
Proof.
  apply this_eq. rewrite this_mult, !qz_this. rewrite inject_Z_mult. reflexivity.
Qed.
Lemma qz_le a b : (a <= b)%Z <-> (qz a <= qz b)%Qc.
Proof.
  unfold Qcle. rewrite !qz_this. rewrite Zle_Qle. reflexivity.
Qed.
Lemma qz_lt a b : (a < b)%Z <-> (qz a < qz b)%Qc.
Proof.
  unfold Qclt. rewrite !qz_this. rewrite Zlt_Qlt. reflexivity.
Qed.
Lemma qz_inj a b : qz a = qz b -> a = b.
Proof.
  intro H. apply Z.le_antisymm; apply qz_le; rewrite H; apply Qcle_refl.
Qed.

(** Closing concrete examples: compute, then compare rationals by value. *)
Ltac qc_ex :=
  vm_compute;
  repeat first [ reflexivity
               | match goal with |- @eq Qc _ _ => apply Qc_is_canon; reflexivity end
               | progress f_equal ].

(* ------------------------------------------------------------------ *)
(** * Dictionaries *)

Section DictFacts.
  Context {K V : Type} (eqb : K -> K -> bool).
  Hypothesis eqb_eq : forall a b, eqb a b = true <-> a = b.

  Lemma eqb_refl' a : eqb a a = true.
  Proof. apply eqb_eq; reflexivity. Qed.
  Lemma eqb_neq' a b : eqb a b = false <-> a <> b.
  Proof.
    split; intro H.
    - intro E. apply eqb_eq in E. congruence.
    - destruct (eqb a b) eqn:E; auto. apply eqb_eq in E. contradiction.
  Qed.

  Lemma dget_dset_eq (d : list (K * V)) k v : dget eqb (dset eqb d k v) k = Some v.
  Proof.
    induction d as [|[k' v'] d IH]; simpl.
    - rewrite eqb_refl'. reflexivity.
    - destruct (eqb k k') eqn:E; simpl; rewrite E; auto.
  Qed.
  Lemma dget_dset_neq (d : list (K * V)) k k' v :
    k <> k' -> dget eqb (dset eqb d k v) k' = dget eqb d k'.
  Proof.
    intro N. induction d as [|[k1 v1] d IH]; simpl.
    - destruct (eqb k' k) eqn:E; auto. apply eqb_eq in E. congruence.
    - destruct (eqb k k1) eqn:E; simpl.
      + apply eqb_eq in E; subst k1. destruct (eqb k' k) eqn:E'; auto.
        apply eqb_eq in E'. congruence.
      + destruct (eqb k' k1); auto.
  Qed.
  Lemma dget_dset (d : list (K * V)) k k' v :
    dget eqb (dset eqb d k v) k' = if eqb k' k then Some v else dget eqb d k'.
  Proof.
    destruct (eqb k' k) eqn:E.
    - apply eqb_eq in E; subst. apply dget_dset_eq.
    - apply eqb_neq' in E. apply dget_dset_neq. congruence.
  Qed.
  Lemma dget_In (d : list (K * V)) k v : dget eqb d k = Some v -> In (k, v) d.
  Proof.
    induction d as [|[k1 v1] d IH]; simpl; intro H; [discriminate|].
    destruct (eqb k k1) eqn:E.
    - apply eqb_eq in E. left. congruence.
    - right; auto.
  Qed.
  Lemma dget_None (d : list (K * V)) k : dget eqb d k = None <-> ~ In k (map fst d).
  Proof.
    induction d as [|[k1 v1] d IH]; simpl; [tauto|].
    destruct (eqb k k1) eqn:E.
    - apply eqb_eq in E; subst. split; [discriminate | intro H; exfalso; auto].
    - apply eqb_neq' in E. rewrite IH. split; intro H; [intros [?|?]; congruence|tauto].
  Qed.
  Lemma dget_In_NoDup (d : list (K * V)) k v :
    NoDup (map fst d) -> (dget eqb d k = Some v <-> In (k, v) d).
  Proof.
    intro N. split; [apply dget_In|].
    induction d as [|[k1 v1] d IH]; simpl; [tauto|].
    simpl in N. inversion N; subst. intros [H|H].
    - inversion H; subst. rewrite eqb_refl'. reflexivity.
    - destruct (eqb k k1) eqn:E.
      + apply eqb_eq in E; subst. exfalso. apply H1.
        change k1 with (fst (k1, v)). apply in_map; auto.
      + auto.
  Qed.
  Lemma dset_keys_In (d : list (K * V)) k v x :
    In x (map fst (dset eqb d k v)) <-> x = k \/ In x (map fst d).
  Proof.
    induction d as [|[k1 v1] d IH]; simpl; [intuition|].
    destruct (eqb k k1) eqn:E; simpl.
    - apply eqb_eq in E; subst. intuition.
    - rewrite IH. intuition.
  Qed.
  Lemma dset_NoDup (d : list (K * V)) k v :
    NoDup (map fst d) -> NoDup (map fst (dset eqb d k v)).
  Proof.
    induction d as [|[k1 v1] d IH]; simpl; intro N.
    - constructor; [simpl; tauto | constructor].
    - inversion N; subst. destruct (eqb k k1) eqn:E; simpl; constructor; auto.
      rewrite dset_keys_In. apply eqb_neq' in E. intros [?|?]; congruence.
  Qed.
  Lemma ddel_keys_In (d : list (K * V)) k x :
    NoDup (map fst d) -> (In x (map fst (ddel eqb d k)) <-> x <> k /\ In x (map fst d)).
  Proof.
    induction d as [|[k1 v1] d IH]; simpl; intro N; [intuition|].
    inversion N; subst. destruct (eqb k k1) eqn:E; simpl.
    - apply eqb_eq in E; subst. split; [intro H; split; [intro; subst; auto|auto]|intros [? [?|?]]; auto; congruence].
    - apply eqb_neq' in E. rewrite IH by auto. split.
      + intros [?|[? ?]]; [subst; auto|auto].
      + intros [? [?|?]]; auto.
  Qed.
  Lemma ddel_NoDup (d : list (K * V)) k : NoDup (map fst d) -> NoDup (map fst (ddel eqb d k)).
  Proof.
    induction d as [|[k1 v1] d IH]; simpl; intro N; auto.
    inversion N; subst. destruct (eqb k k1) eqn:E; simpl; auto.
    constructor; auto. rewrite ddel_keys_In by auto. tauto.
  Qed.
  Lemma ddel_In (d : list (K * V)) k x v :
    NoDup (map fst d) -> (In (x, v) (ddel eqb d k) <-> x <> k /\ In (x, v) d).
  Proof.
    induction d as [|[k1 v1] d IH]; simpl; intro N; [intuition|].
    inversion N; subst. destruct (eqb k k1) eqn:E; simpl.
    - apply eqb_eq in E; subst. split.
      + intro H. split; auto. intro; subst. apply H1.
        change k1 with (fst (k1, v)). apply in_map; auto.
      + intros [? [?|?]]; auto. congruence.
    - apply eqb_neq' in E. rewrite IH by auto. split.
      + intros [?|[? ?]]; auto. inversion H; subst; auto.
      + intros [? [?|?]]; auto.
  Qed.
  Lemma dmem_In (d : list (K * V)) k : dmem eqb d k = true <-> In k (map fst d).
  Proof.
    unfold dmem. destruct (dget eqb d k) eqn:E.
    - split; auto. intros _. apply dget_In in E.
      change k with (fst (k, v)). apply in_map; auto.
    - apply dget_None in E. split; [discriminate|contradiction].
  Qed.
  Lemma dmem_false (d : list (K * V)) k : dmem eqb d k = false <-> ~ In k (map fst d).
  Proof.
    rewrite <- dmem_In. destruct (dmem eqb d k); split; intro H; auto; try congruence.
  Qed.
End DictFacts.

(* ------------------------------------------------------------------ *)
(** * Deduplication *)

Section DedupFacts.
  Context {A : Type} (eqb : A -> A -> bool).
  Hypothesis eqb_eq : forall a b, eqb a b = true <-> a = b.

  Lemma memb_In x l : memb eqb x l = true <-> In x l.
  Proof.
    induction l; simpl; [split; [discriminate|tauto]|].
    rewrite orb_true_iff, IHl, eqb_eq. intuition congruence.
  Qed.
  Lemma memb_nIn x l : memb eqb x l = false <-> ~ In x l.
  Proof. rewrite <- memb_In. destruct (memb eqb x l); split; intro; congruence. Qed.
  Lemma dedup_from_In seen l x :
    In x (dedup_from eqb seen l) <-> In x l /\ ~ In x seen.
  Proof.
    revert seen; induction l as [|y l IH]; intro seen; simpl; [tauto|].
    destruct (memb eqb y seen) eqn:E.
    - apply memb_In in E. rewrite IH. split; [tauto|].
      intros [[?|?] ?]; subst; tauto.
    - apply memb_nIn in E. simpl. rewrite IH. simpl. split.
      + intros [?|[? ?]]; subst; tauto.
      + intros [[?|?] ?]; [tauto|].
        destruct (eqb y x) eqn:E2; [apply eqb_eq in E2; tauto|].
        right. split; auto. intros [?|?]; auto.
        subst. rewrite (proj2 (eqb_eq x x) eq_refl) in E2. discriminate.
  Qed.
  Lemma dedup_In l x : In x (dedup eqb l) <-> In x l.
  Proof. unfold dedup. rewrite dedup_from_In. simpl. tauto. Qed.
  Lemma dedup_from_NoDup seen l : NoDup (dedup_from eqb seen l).
  Proof.
    revert seen; induction l as [|y l IH]; intro seen; simpl; [constructor|].
    destruct (memb eqb y seen); auto. constructor; auto.
    rewrite dedup_from_In. simpl. tauto.
  Qed.
  Lemma dedup_NoDup l : NoDup (dedup eqb l).
  Proof. apply dedup_from_NoDup. Qed.
End DedupFacts.

(* ------------------------------------------------------------------ *)
(** * Misc *)

Lemma filter_perm {A} (p : A -> bool) l1 l2 :
  Permutation l1 l2 -> Permutation (filter p l1) (filter p l2).
Proof.
  induction 1; simpl; auto.
  - destruct (p x); auto.
  - destruct (p x), (p y); auto. apply perm_swap.
  - etransitivity; eauto.
Qed.
Lemma filter_app' {A} (p : A -> bool) l1 l2 : filter p (l1 ++ l2) = filter p l1 ++ filter p l2.
Proof. induction l1; simpl; auto. destruct (p a); simpl; congruence. Qed.

Lemma NoDup_app {A} (l1 l2 : list A) :
  NoDup l1 -> NoDup l2 -> (forall x, In x l1 -> ~ In x l2) -> NoDup (l1 ++ l2).
Proof.
  induction 1 as [|x l1 Hx H1 IH]; simpl; intros H2 D; auto.
  constructor.
  - rewrite in_app_iff. intros [H|H]; auto. eapply D; eauto; left; auto.
  - apply IH; auto.
Qed.
Lemma NoDup_map_inj {A B} (f : A -> B) l :
  (forall x y, In x l -> In y l -> f x = f y -> x = y) -> NoDup l -> NoDup (map f l).
Proof.
  intros Hf N. induction N as [|x l Hx N IH]; simpl; constructor.
  - rewrite in_map_iff. intros [y [E Hy]]. apply Hf in E; simpl; auto. subst; contradiction.
  - apply IH. intros; apply Hf; simpl; auto.
Qed.
Lemma Forall2_length {A B} (P : A -> B -> Prop) l1 l2 : Forall2 P l1 l2 -> length l1 = length l2.
Proof. induction 1; simpl; congruence. Qed.

Lemma string_eqb_eq a b : String.eqb a b = true <-> a = b.
Proof. apply String.eqb_eq. Qed.
