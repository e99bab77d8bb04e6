(* Proofs of the theorems restated in Detection_Properties.v. *)
From Coq Require Import String Ascii Sorted.
From Verif Require Import Base BaseFacts Beam BeamFacts Util_Model Util_Main Keys_Model Inputs_Model Inputs_Main Sums_Model Sums_Main Histogram_Model Histogram_Main Confusion_Model Confusion_Main Evaluator_Model Evaluator_Main Classes_Main Ranking_Model Ranking_Main Detection_Model.
Local Open Scope string_scope.
Local Open Scope list_scope.

(* C156 - C168: matching of bounding boxes, its inputs and the averages of the COCO metrics. *)

(** Boxes for the examples. *)

Definition ex_box (l t r b c : Z) : box := [qz l; qz t; qz r; qz b; qz c].

Definition ex_seen (l t r b c : Z) (p : Q) : box := [qz l; qz t; qz r; qz b; qz c; Q2Qc p].

Definition everything : num * num := (Fin 0%Qc, PosInf).

Definition ex_settings : detection_settings := DetectionSettings 1 (Q2Qc (1#2)) everything None None.

(** A box is a set of points; its size. *)

Definition proper (b : box) : Prop := (b_left b <= b_right b /\ b_top b <= b_bottom b)%Qc.

Definition inside (b : box) (x y : Qc) : Prop := (b_left b <= x /\ x <= b_right b /\ b_top b <= y /\ y <= b_bottom b)%Qc.

Definition size (b : box) : Qc := ((b_right b - b_left b) * (b_bottom b - b_top b))%Qc.

Lemma Qcmax_cases a b : (a <= b /\ Qcmax a b = b)%Qc \/ (b < a /\ Qcmax a b = a)%Qc.
Proof. unfold Qcmax. destruct (Qc_leb a b) eqn:E; [left; apply Qc_leb_le in E|right; apply Qc_leb_gt in E]; auto. Qed.

Lemma Qcmin_cases a b : (a <= b /\ Qcmin a b = a)%Qc \/ (b < a /\ Qcmin a b = b)%Qc.
Proof. unfold Qcmin. destruct (Qc_leb a b) eqn:E; [left; apply Qc_leb_le in E|right; apply Qc_leb_gt in E]; auto. Qed.

(** The common part of two boxes. *)

Definition common (a b : box) : box :=
  [Qcmax (b_left a) (b_left b); Qcmax (b_top a) (b_top b); Qcmin (b_right a) (b_right b); Qcmin (b_bottom a) (b_bottom b)].

Definition overlap_size (a b : box) : Qc :=
  (Qcmax (Qcmin (b_right a) (b_right b) - Qcmax (b_left a) (b_left b)) 0 * Qcmax (Qcmin (b_bottom a) (b_bottom b) - Qcmax (b_top a) (b_top b)) 0)%Qc.

Lemma iou_unfold a b : iou a b = let u := (size a + size b - overlap_size a b)%Qc in if Qc_eqb u 0%Qc then 0%Qc else (overlap_size a b / u)%Qc.
Proof. reflexivity. Qed.

Lemma common_inside a b x y : inside (common a b) x y <-> inside a x y /\ inside b x y.
Proof.
  unfold inside, common, b_left, b_top, b_right, b_bottom. cbn [nth].
  assert (MX : forall u v z, (Qcmax u v <= z <-> u <= z /\ v <= z)%Qc).
  { intros u v z. destruct (Qcmax_cases u v) as [[? ->]|[? ->]]; (split; [intros ?; split; qc_lra|intros [? ?]; qc_lra]). }
  assert (MN : forall u v z, (z <= Qcmin u v <-> z <= u /\ z <= v)%Qc).
  { intros u v z. destruct (Qcmin_cases u v) as [[? ->]|[? ->]]; (split; [intros ?; split; qc_lra|intros [? ?]; qc_lra]). }
  rewrite !MX, !MN. tauto.
Qed.

(** Boxes with the same points have the same corners. *)

Lemma inside_corners i j : proper i -> (forall x y, inside i x y -> inside j x y) ->
  (b_left j <= b_left i /\ b_right i <= b_right j /\ b_top j <= b_top i /\ b_bottom i <= b_bottom j)%Qc.
Proof.
  intros [P Q] H. assert (A : inside i (b_left i) (b_top i)) by (unfold inside; repeat split; qc_lra).
  assert (B : inside i (b_right i) (b_bottom i)) by (unfold inside; repeat split; qc_lra).
  apply H in A. apply H in B. unfold inside in A, B. destruct A as (? & ? & ? & ?), B as (? & ? & ? & ?). repeat split; qc_lra.
Qed.

Lemma overlap_of a b i : proper i -> (forall x y, inside i x y <-> inside a x y /\ inside b x y) -> overlap_size a b = size i.
Proof.
  intros P H. destruct (inside_corners i (common a b) P) as (A1 & A2 & A3 & A4).
  { intros x y I. apply common_inside. apply H. exact I. }
  assert (PC : proper (common a b)).
  { destruct P as [P1 P2]. split; qc_lra. }
  destruct (inside_corners (common a b) i PC) as (B1 & B2 & B3 & B4).
  { intros x y I. apply H. apply common_inside. exact I. }
  assert (E1 : b_left i = b_left (common a b)) by (apply Qcle_antisym; assumption).
  assert (E2 : b_right i = b_right (common a b)) by (apply Qcle_antisym; assumption).
  assert (E3 : b_top i = b_top (common a b)) by (apply Qcle_antisym; assumption).
  assert (E4 : b_bottom i = b_bottom (common a b)) by (apply Qcle_antisym; assumption).
  unfold size. rewrite E1, E2, E3, E4. unfold overlap_size. destruct PC as [P1 P2].
  unfold common, b_left, b_top, b_right, b_bottom in *. cbn [nth] in *.
  destruct (Qcmax_cases (Qcmin (nth 2 a 0) (nth 2 b 0) - Qcmax (nth 0 a 0) (nth 0 b 0))%Qc 0%Qc) as [[L ->]|[_ ->]];
  destruct (Qcmax_cases (Qcmin (nth 3 a 0) (nth 3 b 0) - Qcmax (nth 1 a 0) (nth 1 b 0))%Qc 0%Qc) as [[M ->]|[_ ->]]; try reflexivity.
  - assert (Z : (Qcmin (nth 2 a 0) (nth 2 b 0) - Qcmax (nth 0 a 0) (nth 0 b 0) = 0)%Qc) by (apply Qcle_antisym; qc_lra). rewrite Z. ring.
  - assert (Z : (Qcmin (nth 2 a 0) (nth 2 b 0) - Qcmax (nth 0 a 0) (nth 0 b 0) = 0)%Qc) by (apply Qcle_antisym; qc_lra). rewrite Z. ring.
  - assert (Z : (Qcmin (nth 3 a 0) (nth 3 b 0) - Qcmax (nth 1 a 0) (nth 1 b 0) = 0)%Qc) by (apply Qcle_antisym; qc_lra). rewrite Z. ring.
Qed.

Lemma Qcmult_le_compat a b c d : (0 <= a -> a <= b -> 0 <= c -> c <= d -> a * c <= b * d)%Qc.
Proof.
  intros A B C D. apply Qcle_trans with (b * c)%Qc; [apply Qcmult_le_compat_r; assumption|].
  rewrite (Qcmult_comm b c), (Qcmult_comm b d). apply Qcmult_le_compat_r; [assumption|]. qc_lra.
Qed.

Lemma size_nonneg a : proper a -> (0 <= size a)%Qc.
Proof. intros [A B]. unfold size. replace 0%Qc with (0 * 0)%Qc by ring. apply Qcmult_le_compat; qc_lra. Qed.

(** One dimension: the common part of two intervals. *)

Definition shared (l r l' r' : Qc) : Qc := Qcmax (Qcmin r r' - Qcmax l l')%Qc 0%Qc.

Lemma shared_bounds l r l' r' : (l <= r -> l' <= r' -> 0 <= shared l r l' r' /\ shared l r l' r' <= r - l /\ shared l r l' r' <= r' - l')%Qc.
Proof.
  intros A B. unfold shared. destruct (Qcmax_cases l l') as [[? ->]|[? ->]], (Qcmin_cases r r') as [[? ->]|[? ->]];
    match goal with |- context [Qcmax ?x 0%Qc] => destruct (Qcmax_cases x 0%Qc) as [[? ->]|[? ->]] end; repeat split; qc_lra.
Qed.

Lemma shared_whole l r l' r' : (0 < shared l r l' r' -> shared l r l' r' = r - l -> shared l r l' r' = r' - l' -> l = l' /\ r = r')%Qc.
Proof.
  unfold shared. intros P A B.
  destruct (Qcmax_cases (Qcmin r r' - Qcmax l l')%Qc 0%Qc) as [[? R]|[? R]]; rewrite R in P, A, B; [exfalso; revert P; apply Qcle_not_lt; qc_lra|]. clear R.
  destruct (Qcmax_cases l l') as [[? R1]|[? R1]], (Qcmin_cases r r') as [[? R2]|[? R2]]; rewrite R1, R2 in A, B; clear R1 R2; split; apply Qcle_antisym; qc_lra.
Qed.

Lemma overlap_shared a b : overlap_size a b = (shared (b_left a) (b_right a) (b_left b) (b_right b) * shared (b_top a) (b_bottom a) (b_top b) (b_bottom b))%Qc.
Proof. reflexivity. Qed.

Lemma overlap_bounds a b : proper a -> proper b -> (0 <= overlap_size a b /\ overlap_size a b <= size a /\ overlap_size a b <= size b)%Qc.
Proof.
  intros [A1 A2] [B1 B2]. rewrite overlap_shared. unfold size.
  destruct (shared_bounds _ _ _ _ A1 B1) as (W1 & W2 & W3). destruct (shared_bounds _ _ _ _ A2 B2) as (H1 & H2 & H3).
  split; [|split; apply Qcmult_le_compat; assumption].
  replace 0%Qc with (0 * 0)%Qc by ring. apply Qcmult_le_compat; try assumption; apply Qcle_refl.
Qed.

Lemma C156_intersection_over_union_pf :
  forall a b i, proper a -> proper b -> proper i -> (0 < size a \/ 0 < size b)%Qc ->
    (forall x y, inside i x y <-> inside a x y /\ inside b x y) ->
    (iou a b * (size a + size b - size i) = size i)%Qc.
Proof.
  intros a b i A B I P H. rewrite iou_unfold. cbn zeta. rewrite (overlap_of a b i I H).
  destruct (overlap_bounds a b A B) as (_ & O1 & O2). rewrite (overlap_of a b i I H) in O1, O2. pose proof (size_nonneg a A). pose proof (size_nonneg b B).
  pose proof (size_nonneg i I). assert (U : (0 < size a + size b - size i)%Qc) by (destruct P; qc_lra).
  destruct (Qc_eqb (size a + size b - size i) 0) eqn:E; [apply Qc_eqb_eq in E; rewrite E in U; exfalso; revert U; apply Qcle_not_lt; qc_lra|].
  apply Qc_eqb_neq in E. unfold Qcdiv. rewrite <- Qcmult_assoc, (Qcmult_comm (/ _)), Qcmult_inv_r by exact E. ring.
Qed.

Lemma C156_disjoint_boxes_pf :
  forall a b, proper a -> proper b -> (forall x y, ~ (inside a x y /\ inside b x y)) -> iou a b = 0%Qc.
Proof.
  intros a b A B H. rewrite iou_unfold. cbn zeta.
  assert (Z : overlap_size a b = 0%Qc).
  { unfold overlap_size. destruct (Qcmax_cases (Qcmin (b_right a) (b_right b) - Qcmax (b_left a) (b_left b))%Qc 0%Qc) as [[L ->]|[L ->]]; [ring|].
    destruct (Qcmax_cases (Qcmin (b_bottom a) (b_bottom b) - Qcmax (b_top a) (b_top b))%Qc 0%Qc) as [[M ->]|[M ->]]; [ring|].
    exfalso. apply (H (b_left (common a b)) (b_top (common a b))). apply common_inside. unfold inside, common, b_left, b_top, b_right, b_bottom in *. cbn [nth]. repeat split; qc_lra. }
  rewrite Z. destruct (Qc_eqb _ _); [reflexivity|]. unfold Qcdiv. ring.
Qed.

Lemma C156_range_pf :
  forall a b, proper a -> proper b -> (0 <= iou a b <= 1)%Qc.
Proof.
  intros a b A B. rewrite iou_unfold. cbn zeta. destruct (overlap_bounds a b A B) as (O0 & O1 & O2). pose proof (size_nonneg a A). pose proof (size_nonneg b B).
  destruct (Qc_eqb (size a + size b - overlap_size a b) 0) eqn:E; [split; qc_lra|]. apply Qc_eqb_neq in E.
  assert (U : (0 < size a + size b - overlap_size a b)%Qc).
  { assert (U : (0 <= size a + size b - overlap_size a b)%Qc) by qc_lra. apply Qcle_lt_or_eq in U. destruct U; [assumption|congruence]. }
  split; [apply Qcdiv_nonneg; assumption|]. apply Qcdiv_le_1; qc_lra.
Qed.

Lemma C156_symmetric_pf : forall a b, iou a b = iou b a.
Proof.
  intros a b. rewrite !iou_unfold. cbn zeta.
  assert (M : forall x y, Qcmax x y = Qcmax y x).
  { intros x y. destruct (Qcmax_cases x y) as [[? ->]|[? ->]], (Qcmax_cases y x) as [[? ->]|[? ->]]; try reflexivity; apply Qcle_antisym; qc_lra. }
  assert (N : forall x y, Qcmin x y = Qcmin y x).
  { intros x y. destruct (Qcmin_cases x y) as [[? ->]|[? ->]], (Qcmin_cases y x) as [[? ->]|[? ->]]; try reflexivity; apply Qcle_antisym; qc_lra. }
  assert (O : overlap_size a b = overlap_size b a) by (unfold overlap_size; rewrite (M (b_left a)), (M (b_top a)), (N (b_right a)), (N (b_bottom a)); reflexivity).
  rewrite O. rewrite (Qcplus_comm (size a)). reflexivity.
Qed.

Lemma C156_same_box_pf :
  forall a b, proper a -> proper b -> (0 < size a)%Qc -> (0 < size b)%Qc ->
    (iou a b = 1%Qc <-> b_left a = b_left b /\ b_top a = b_top b /\ b_right a = b_right b /\ b_bottom a = b_bottom b).
Proof.
  intros a b A B PA PB. rewrite iou_unfold. cbn zeta. destruct (overlap_bounds a b A B) as (O0 & O1 & O2).
  set (u := (size a + size b - overlap_size a b)%Qc) in *. assert (U : (0 < u)%Qc) by (unfold u; qc_lra).
  destruct (Qc_eqb u 0) eqn:E; [apply Qc_eqb_eq in E; rewrite E in U; exfalso; revert U; apply Qcle_not_lt; qc_lra|]. apply Qc_eqb_neq in E. split.
  - intros I.
    assert (V : overlap_size a b = u).
    { transitivity (overlap_size a b / u * u)%Qc; [unfold Qcdiv; rewrite <- Qcmult_assoc, (Qcmult_comm (/ _)), Qcmult_inv_r by exact E; ring|rewrite I; ring]. }
    assert (VA : overlap_size a b = size a) by (apply Qcle_antisym; [assumption|unfold u in V; qc_lra]).
    assert (VB : overlap_size a b = size b) by (apply Qcle_antisym; [assumption|unfold u in V; qc_lra]).
    clear V I E U. clearbody u. clear u.
    assert (strict : forall w h w' h' : Qc, (0 <= w -> 0 <= h -> w <= w' -> h <= h' -> w * h = w' * h' -> 0 < w' * h' -> w = w' /\ h = h')%Qc).
    { intros w h w' h' W Hh W' H' Eq Pos.
      assert (Wp : (0 < w')%Qc) by (destruct (Qclt_le_dec 0 w') as [|L]; [assumption|]; exfalso; assert (w' = 0%Qc) by (apply Qcle_antisym; qc_lra); subst w'; revert Pos; apply Qcle_not_lt; qc_lra).
      assert (Hp : (0 < h')%Qc) by (destruct (Qclt_le_dec 0 h') as [|L]; [assumption|]; exfalso; assert (h' = 0%Qc) by (apply Qcle_antisym; qc_lra); subst h'; revert Pos; apply Qcle_not_lt; qc_lra).
      assert (L1 : (w * h <= w * h')%Qc) by (rewrite !(Qcmult_comm w); apply Qcmult_le_compat_r; assumption).
      assert (L2 : (w * h <= w' * h)%Qc) by (apply Qcmult_le_compat_r; assumption).
      rewrite Eq in L1, L2. split; apply Qcle_antisym; try assumption.
      - destruct (Qclt_le_dec w w') as [L|L]; [|assumption]. exfalso. apply (Qcmult_lt_compat_r w w' h' Hp) in L. revert L1. apply Qclt_not_le. exact L.
      - destruct (Qclt_le_dec h h') as [L|L]; [|assumption]. exfalso. apply (Qcmult_lt_compat_r h h' w' Wp) in L. rewrite !(Qcmult_comm _ w') in L. revert L2. apply Qclt_not_le. exact L. }
    rewrite overlap_shared in VA, VB. unfold size in VA, VB, PA, PB. destruct A as [A1 A2], B as [B1 B2].
    destruct (shared_bounds _ _ _ _ A1 B1) as (W0 & WA & WB). destruct (shared_bounds _ _ _ _ A2 B2) as (H0 & HA & HB).
    destruct (strict _ _ _ _ W0 H0 WA HA VA PA) as [EA FA]. destruct (strict _ _ _ _ W0 H0 WB HB VB PB) as [EB FB].
    assert (pos : forall x y : Qc, (0 <= x -> 0 < x * y -> 0 < x)%Qc).
    { intros x y L P. apply Qcle_lt_or_eq in L. destruct L as [L|L]; [exact L|]. subst x. exfalso. revert P. apply Qcle_not_lt. rewrite Qcmult_0_l. apply Qcle_refl. }
    assert (Wp : (0 < shared (b_left a) (b_right a) (b_left b) (b_right b))%Qc) by (rewrite EA; apply (pos _ (b_bottom a - b_top a)%Qc); [rewrite <- EA; exact W0|exact PA]).
    assert (Hp : (0 < shared (b_top a) (b_bottom a) (b_top b) (b_bottom b))%Qc) by (rewrite FA; apply (pos _ (b_right a - b_left a)%Qc); [rewrite <- FA; exact H0|rewrite Qcmult_comm; exact PA]).
    destruct (shared_whole _ _ _ _ Wp EA EB) as [? ?]. destruct (shared_whole _ _ _ _ Hp FA FB) as [? ?]. auto.
  - intros (E1 & E2 & E3 & E4). unfold u. assert (V : overlap_size a b = size a).
    { unfold overlap_size, size. rewrite <- E1, <- E2, <- E3, <- E4. destruct A as [A1 A2].
      assert (M : forall x, Qcmax x x = x) by (intros x; destruct (Qcmax_cases x x) as [[? ->]|[? ->]]; reflexivity).
      assert (N : forall x, Qcmin x x = x) by (intros x; destruct (Qcmin_cases x x) as [[? ->]|[? ->]]; reflexivity).
      rewrite !M, !N. destruct (Qcmax_cases (b_right a - b_left a)%Qc 0%Qc) as [[? ->]|[? ->]], (Qcmax_cases (b_bottom a - b_top a)%Qc 0%Qc) as [[? ->]|[? ->]]; try reflexivity.
      - replace (b_right a - b_left a)%Qc with 0%Qc by (apply Qcle_antisym; qc_lra). ring.
      - replace (b_right a - b_left a)%Qc with 0%Qc by (apply Qcle_antisym; qc_lra). ring.
      - replace (b_bottom a - b_top a)%Qc with 0%Qc by (apply Qcle_antisym; qc_lra). ring. }
    assert (W : size b = size a) by (unfold size; rewrite <- E1, <- E2, <- E3, <- E4; reflexivity).
    rewrite V, W. replace (size a + size a - size a)%Qc with (size a) by ring. apply Qcmult_inv_r. intros Z. rewrite Z in PA. revert PA. apply Qcle_not_lt. qc_lra.
Qed.

Lemma area_ok bs : (forall b, In b bs -> proper b) -> bounding_box_area bs = Ok (map size bs).
Proof.
  intros H. unfold bounding_box_area.
  assert (E1 : existsb (fun b => Qc_ltb (b_right b - b_left b)%Qc 0%Qc) bs = false).
  { apply not_true_is_false. intros E. apply existsb_exists in E. destruct E as (b & I & L). apply Qc_ltb_lt in L. destruct (H b I). revert L. apply Qcle_not_lt. qc_lra. }
  assert (E2 : existsb (fun b => Qc_ltb (b_bottom b - b_top b)%Qc 0%Qc) bs = false).
  { apply not_true_is_false. intros E. apply existsb_exists in E. destruct E as (b & I & L). apply Qc_ltb_lt in L. destruct (H b I). revert L. apply Qcle_not_lt. qc_lra. }
  rewrite E1, E2. reflexivity.
Qed.

Lemma area_bad bs b : In b bs -> ~ proper b -> bounding_box_area bs = Err ValueError.
Proof.
  intros I N. unfold bounding_box_area. destruct (existsb (fun b => Qc_ltb (b_right b - b_left b)%Qc 0%Qc) bs) eqn:E1; [reflexivity|].
  destruct (existsb (fun b => Qc_ltb (b_bottom b - b_top b)%Qc 0%Qc) bs) eqn:E2; [reflexivity|]. exfalso. apply N.
  assert (L1 : Qc_ltb (b_right b - b_left b)%Qc 0%Qc = false) by (apply not_true_is_false; intros T; rewrite (proj2 (existsb_exists _ bs)) in E1; [discriminate|exists b; auto]).
  assert (L2 : Qc_ltb (b_bottom b - b_top b)%Qc 0%Qc = false) by (apply not_true_is_false; intros T; rewrite (proj2 (existsb_exists _ bs)) in E2; [discriminate|exists b; auto]).
  split; apply Qcnot_lt_le; intros L.
  - rewrite (proj2 (Qc_ltb_lt _ _)) in L1; [discriminate|qc_lra].
  - rewrite (proj2 (Qc_ltb_lt _ _)) in L2; [discriminate|qc_lra].
Qed.

Lemma C156_table_pf :
  forall ps gs, (forall b, In b ps \/ In b gs -> proper b) ->
    exists t, compute_ious_for_image ps gs = Ok t /\ length t = length ps /\
      forall i p, nth_error ps i = Some p -> exists row, nth_error t i = Some row /\ length row = length gs /\
        forall j g, nth_error gs j = Some g -> nth_error row j = Some (iou p g).
Proof.
  intros ps gs H. unfold compute_ious_for_image. rewrite (area_ok ps), (area_ok gs) by auto. cbn [bind].
  eexists. split; [reflexivity|]. split; [apply map_length|]. intros i p I. eexists. split; [rewrite nth_error_map, I; reflexivity|].
  split; [apply map_length|]. intros j g J. rewrite nth_error_map, J. reflexivity.
Qed.

Lemma C156_improper_refused_pf :
  forall ps gs b, In b ps \/ In b gs -> ~ proper b -> compute_ious_for_image ps gs = Err ValueError.
Proof.
  intros ps gs b I N. unfold compute_ious_for_image. destruct I as [I|I].
  - rewrite (area_bad ps b I N). reflexivity.
  - assert (D : bounding_box_area ps = Err ValueError \/ exists l, bounding_box_area ps = Ok l).
    { unfold bounding_box_area. destruct (existsb _ ps); [auto|]. destruct (existsb _ ps); [auto|]. eauto. }
    destruct D as [D|[l D]]; rewrite D; [reflexivity|]. cbn [bind]. rewrite (area_bad gs b I N). reflexivity.
Qed.

(** The prediction at place i of the order takes a ground truth nobody before it has
    taken, the one it overlaps most (the last of equals), if that overlap is enough. *)

Definition free (taken : list (option nat)) (i j : nat) : Prop :=
  forall i', (i' < i)%nat -> nth_error taken i' <> Some (Some j).

Definition greedy (ov : nat -> nat -> Qc) (enough : Qc) (n_pred n_gt : nat) (taken : list (option nat)) : Prop :=
  length taken = n_pred /\
  forall i, (i < n_pred)%nat ->
    match nth_error taken i with
    | Some (Some j) => (j < n_gt)%nat /\ free taken i j /\ (enough <= ov i j)%Qc /\
        forall j', (j' < n_gt)%nat -> free taken i j' -> (ov i j' <= ov i j)%Qc /\ ((j < j')%nat -> (ov i j' < ov i j)%Qc)
    | _ => forall j', (j' < n_gt)%nat -> free taken i j' -> (ov i j' < enough)%Qc
    end.

Lemma best_match_spec row : forall ms k c f, length row = length ms ->
  (best_match row ms k c f = f /\ forall j x, nth_error ms j = Some None -> nth_error row j = Some x -> (x < c)%Qc) \/
  (exists j x, best_match row ms k c f = Some (k + j)%nat /\ nth_error ms j = Some None /\ nth_error row j = Some x /\ (c <= x)%Qc /\
     forall j' x', nth_error ms j' = Some None -> nth_error row j' = Some x' -> (x' <= x)%Qc /\ ((j < j')%nat -> (x' < x)%Qc)).
Proof.
  induction row as [|x row IH]; intros [|m ms] k c f L; try discriminate L.
  - left. split; [reflexivity|]. intros [|j] y E; discriminate E.
  - cbn [length] in L. injection L as L. cbn [best_match].
    assert (shift : forall c' , (forall y, m = None -> y = x -> (y < c')%Qc) \/ m <> None ->
       (best_match row ms (S k) c' f = f /\ forall j y, nth_error ms j = Some None -> nth_error row j = Some y -> (y < c')%Qc) \/
       (exists j y, best_match row ms (S k) c' f = Some (S k + j)%nat /\ nth_error ms j = Some None /\ nth_error row j = Some y /\ (c' <= y)%Qc /\
          forall j' x', nth_error ms j' = Some None -> nth_error row j' = Some x' -> (x' <= y)%Qc /\ ((j < j')%nat -> (x' < y)%Qc)) ->
       (best_match row ms (S k) c' f = f /\ forall j y, nth_error (m :: ms) j = Some None -> nth_error (x :: row) j = Some y -> (y < c')%Qc) \/
       (exists j y, best_match row ms (S k) c' f = Some (k + j)%nat /\ nth_error (m :: ms) j = Some None /\ nth_error (x :: row) j = Some y /\ (c' <= y)%Qc /\
          forall j' x', nth_error (m :: ms) j' = Some None -> nth_error (x :: row) j' = Some x' -> (x' <= y)%Qc /\ ((j < j')%nat -> (x' < y)%Qc))).
    { intros c' Hm [[A B]|(j & y & A & B & C & D & E)].
      - left. split; [exact A|]. intros [|j] y; cbn [nth_error]; [|apply B]. intros Em Ey. injection Em as Em. injection Ey as Ey.
        destruct Hm as [Hm|Hm]; [apply Hm; auto|contradiction].
      - right. exists (S j), y. rewrite A. cbn [nth_error]. split; [f_equal; lia|]. split; [exact B|]. split; [exact C|]. split; [exact D|].
        intros [|j'] x'; cbn [nth_error].
        + intros Em Ex. injection Em as Em. injection Ex as Ex. split; [|lia]. destruct Hm as [Hm|Hm]; [|contradiction].
          specialize (Hm x' Em (eq_sym Ex)). qc_lra.
        + intros Em Ex. destruct (E j' x' Em Ex) as [F G]. split; [exact F|]. intros Lt. apply G. lia. }
    destruct m as [i|].
    + apply shift; [right; discriminate|]. apply IH. exact L.
    + destruct (Qc_ltb x c) eqn:Lt.
      * apply Qc_ltb_lt in Lt. apply shift; [left; intros y _ ->; exact Lt|]. apply IH. exact L.
      * apply Qc_ltb_ge in Lt. right. destruct (IH ms (S k) x (Some k) L) as [[A B]|(j & y & A & B & C & D & E)].
        -- exists 0%nat, x. rewrite A. cbn [nth_error]. split; [f_equal; lia|]. split; [reflexivity|]. split; [reflexivity|]. split; [exact Lt|].
           intros [|j'] x'; cbn [nth_error].
           ++ intros _ Ex. injection Ex as <-. split; [apply Qcle_refl|lia].
           ++ intros Em Ex. specialize (B j' x' Em Ex). split; [apply Qclt_le_weak; exact B|intros _; exact B].
        -- exists (S j), y. rewrite A. cbn [nth_error]. split; [f_equal; lia|]. split; [exact B|]. split; [exact C|]. split; [qc_lra|].
           intros [|j'] x'; cbn [nth_error].
           ++ intros _ Ex. injection Ex as <-. split; [exact D|lia].
           ++ intros Em Ex. destruct (E j' x' Em Ex) as [F G]. split; [exact F|]. intros H. apply G. lia.
Qed.

Lemma set_nth_length {A} (l : list A) i x : length (set_nth l i x) = length l.
Proof. revert i. induction l as [|y l IH]; intros [|i]; cbn; auto. Qed.

Lemma set_nth_same {A} (l : list A) i x : (i < length l)%nat -> nth_error (set_nth l i x) i = Some x.
Proof. revert i. induction l as [|y l IH]; intros [|i] H; cbn in *; try lia; [reflexivity|]. apply IH. lia. Qed.

Lemma set_nth_other {A} (l : list A) i j x : i <> j -> nth_error (set_nth l i x) j = nth_error l j.
Proof. revert i j. induction l as [|y l IH]; intros [|i] [|j] H; cbn; try reflexivity; [congruence|]. apply IH. congruence. Qed.

Definition ov_of (ious : list (list Qc)) (i j : nat) : Qc := nth j (nth i ious []) 0%Qc.

Lemma match_predictions_spec t : forall ious p ms, (forall row, In row ious -> length row = length ms) ->
  let g := fst (match_predictions t ious p ms) in
  let q := snd (match_predictions t ious p ms) in
  length g = length ms /\ length q = length ious /\
  (forall j i, nth_error g j = Some (Some i) <->
     nth_error ms j = Some (Some i) \/ exists i0, i = (p + i0)%nat /\ nth_error q i0 = Some (Some j)) /\
  (forall i j, nth_error q i = Some (Some j) -> nth_error ms j = Some None) /\
  (forall i, (i < length ious)%nat ->
    match nth_error q i with
    | Some (Some j) => nth_error ms j = Some None /\ free q i j /\ (Qcmin t ALMOST_ONE <= ov_of ious i j)%Qc /\
        forall j', nth_error ms j' = Some None -> free q i j' -> (ov_of ious i j' <= ov_of ious i j)%Qc /\ ((j < j')%nat -> (ov_of ious i j' < ov_of ious i j)%Qc)
    | _ => forall j', nth_error ms j' = Some None -> free q i j' -> (ov_of ious i j' < Qcmin t ALMOST_ONE)%Qc
    end).
Proof.
  induction ious as [|row ious IH]; intros p ms H.
  - cbn. split; [reflexivity|]. split; [reflexivity|]. split; [|split].
    + intros j i. split; [auto|]. intros [E|(i0 & _ & E)]; [exact E|]. destruct i0; discriminate E.
    + intros [|i] j E; discriminate E.
    + intros i L. lia.
  - cbn [match_predictions].
    assert (Lr : length row = length ms) by (apply H; left; reflexivity).
    set (found := best_match row ms 0 (Qcmin t ALMOST_ONE) None).
    set (ms' := match found with Some j => set_nth ms j (Some p) | None => ms end).
    assert (Lm : length ms' = length ms) by (unfold ms'; destruct found; [apply set_nth_length|reflexivity]).
    assert (Hr : forall r, In r ious -> length r = length ms') by (intros r I; rewrite Lm; apply H; right; exact I).
    specialize (IH (S p) ms' Hr). destruct (match_predictions t ious (S p) ms') as [g q]. cbn [fst snd] in IH |- *.
    destruct IH as (I1 & I2 & I3 & I4 & I5).
    assert (F : match found with
      | Some j => exists x, nth_error ms j = Some None /\ nth_error row j = Some x /\ (Qcmin t ALMOST_ONE <= x)%Qc /\
           forall j' x', nth_error ms j' = Some None -> nth_error row j' = Some x' -> (x' <= x)%Qc /\ ((j < j')%nat -> (x' < x)%Qc)
      | None => forall j x, nth_error ms j = Some None -> nth_error row j = Some x -> (x < Qcmin t ALMOST_ONE)%Qc end).
    { destruct (best_match_spec row ms 0 (Qcmin t ALMOST_ONE) None Lr) as [[A B]|(j & x & A & B & C & D & E)]; fold found in A; rewrite A.
      - exact B.
      - exists x. cbn [Nat.add]. auto. }
    assert (None' : forall j, nth_error ms' j = Some None <-> nth_error ms j = Some None /\ found <> Some j).
    { intros j. unfold ms'. destruct found as [j0|]; [|split; [intros E; split; [exact E|discriminate]|intros [E _]; exact E]].
      destruct F as (x & F1 & _). destruct (Nat.eq_dec j0 j) as [<-|Ne].
      - rewrite set_nth_same by (apply nth_error_Some; rewrite F1; discriminate). split; [discriminate|]. intros [_ E]. contradiction.
      - rewrite set_nth_other by exact Ne. split; [intros E; split; [exact E|congruence]|intros [E _]; exact E]. }
    assert (Row : forall j, nth_error ms j = Some None -> nth_error row j = Some (ov_of (row :: ious) 0 j)).
    { intros j E. unfold ov_of. cbn [nth]. apply nth_error_nth'. rewrite Lr. apply nth_error_Some. rewrite E. discriminate. }
    split; [congruence|]. split; [cbn [length]; congruence|]. split; [|split].
    + intros j i. rewrite I3. split.
      * intros [E|(i0 & -> & E)].
        -- unfold ms' in E. destruct found as [j0|]; [|auto]. destruct (Nat.eq_dec j0 j) as [<-|Ne].
           ++ right. exists 0%nat. destruct F as (x & F1 & _). rewrite set_nth_same in E by (apply nth_error_Some; rewrite F1; discriminate).
              injection E as <-. split; [lia|reflexivity].
           ++ rewrite set_nth_other in E by exact Ne. auto.
        -- right. exists (S i0). split; [lia|exact E].
      * intros [E|(i0 & -> & E)].
        -- left. unfold ms'. destruct found as [j0|]; [|exact E]. destruct (Nat.eq_dec j0 j) as [<-|Ne].
           ++ destruct F as (x & F1 & _). congruence.
           ++ rewrite set_nth_other by exact Ne. exact E.
        -- destruct i0 as [|i0]; cbn [nth_error] in E.
           ++ left. injection E as E. unfold ms'. rewrite E. rewrite E in F. destruct F as (x & F1 & _).
              rewrite set_nth_same by (apply nth_error_Some; rewrite F1; discriminate). f_equal. f_equal. lia.
           ++ right. exists i0. split; [lia|exact E].
    + intros [|i] j E; cbn [nth_error] in E.
      * injection E as E. rewrite E in F. destruct F as (x & F1 & _). exact F1.
      * apply I4 in E. apply None' in E. tauto.
    + intros [|i] Li; cbn [nth_error length] in *.
      * destruct found as [j|].
        -- destruct F as (x & F1 & F2 & F3 & F4). pose proof (Row j F1) as R. rewrite F2 in R. injection R as R.
           split; [exact F1|]. split; [intros i' L; lia|]. split; [rewrite <- R; exact F3|].
           intros j' N _. rewrite <- R. apply F4; [exact N|apply Row; exact N].
        -- intros j' N _. apply (F j'); [exact N|apply Row; exact N].
      * assert (Li' : (i < length ious)%nat) by lia. specialize (I5 i Li').
        assert (Fr : forall j', free (found :: q) (S i) j' <-> free q i j' /\ found <> Some j').
        { intros j'. unfold free. split.
          - intros Hf. split; [intros i' L; apply (Hf (S i')); lia|]. intros E. apply (Hf 0%nat); [lia|]. cbn. f_equal. exact E.
          - intros [H1 H2] [|i'] L; cbn [nth_error]; [congruence|]. apply H1. lia. }
        change (ov_of (row :: ious) (S i)) with (ov_of ious i).
        destruct (nth_error q i) as [[j|]|].
        -- destruct I5 as (J1 & J2 & J3 & J4). apply None' in J1. destruct J1 as [J0 J1]. split; [exact J0|]. split; [apply Fr; auto|]. split; [exact J3|].
           intros j' N Hf. apply Fr in Hf. destruct Hf as [Hf Nf]. apply J4; [apply None'; auto|exact Hf].
        -- intros j' N Hf. apply Fr in Hf. destruct Hf as [Hf Nf]. apply I5; [apply None'; auto|exact Hf].
        -- intros j' N Hf. apply Fr in Hf. destruct Hf as [Hf Nf]. apply I5; [apply None'; auto|exact Hf].
Qed.

Lemma nth_error_none_repeat {A} (x : A) n j y : nth_error (repeat x n) j = Some y <-> (j < n)%nat /\ y = x.
Proof.
  revert j. induction n as [|n IH]; intros j; cbn [repeat]; [destruct j; split; [discriminate|lia|discriminate|lia]|].
  destruct j as [|j]; cbn [nth_error]; [split; [intros E; injection E as ->; split; [lia|reflexivity]|intros [_ ->]; reflexivity]|].
  rewrite IH. split; intros [L E]; (split; [lia|exact E]).
Qed.

(** The overlap a match needs: the threshold, but never more than 1 - 10^-10. *)

Definition needed (t : Qc) : Qc :=
  if Qc_leb t (Q2Qc (9999999999 # 10000000000)) then t else Q2Qc (9999999999 # 10000000000).

Lemma needed_eq t : needed t = Qcmin t ALMOST_ONE.
Proof.
  assert (E : ALMOST_ONE = Q2Qc (9999999999 # 10000000000)) by (vm_compute; qc_ex).
  unfold needed. rewrite E. reflexivity.
Qed.

Lemma C157_greedy_matching_pf :
  forall ious n t, (forall row, In row ious -> length row = n) -> (0 <= t)%Qc ->
    exists g q, match_boxes ious n t = Ok (g, q) /\ length g = n /\
      (forall i j, nth_error g j = Some (Some i) <-> nth_error q i = Some (Some j)) /\
      greedy (ov_of ious) (needed t) (length ious) n q.
Proof.
  intros ious n t H T. rewrite needed_eq. unfold match_boxes. replace (Qc_ltb t 0%Qc) with false by (symmetry; apply Qc_ltb_ge; exact T).
  assert (Lr : length (@repeat (option nat) None n) = n) by apply repeat_length.
  pose proof (match_predictions_spec t ious 0 (repeat None n)) as M. rewrite Lr in M. specialize (M H).
  destruct (match_predictions t ious 0 (repeat None n)) as [g q]. cbn [fst snd] in M. destruct M as (M1 & M2 & M3 & M4 & M5).
  exists g, q. split; [reflexivity|]. split; [exact M1|]. split.
  - intros i j. rewrite M3. split.
    + intros [E|(i0 & -> & E)]; [apply nth_error_none_repeat in E; destruct E; discriminate|exact E].
    + intros E. right. exists i. auto.
  - split; [exact M2|]. intros i L. specialize (M5 i L). destruct (nth_error q i) as [[j|]|].
    + destruct M5 as (A & B & C & D). split; [apply nth_error_none_repeat in A; tauto|]. split; [exact B|]. split; [exact C|].
      intros j' Lj Fj. apply D; [apply nth_error_none_repeat; auto|exact Fj].
    + intros j' Lj Fj. apply M5; [apply nth_error_none_repeat; auto|exact Fj].
    + intros j' Lj Fj. apply M5; [apply nth_error_none_repeat; auto|exact Fj].
Qed.

Lemma C157_negative_threshold_refused_pf :
  forall ious n t, (t < 0)%Qc -> match_boxes ious n t = Err ValueError.
Proof. intros ious n t T. unfold match_boxes. rewrite (proj2 (Qc_ltb_lt t 0%Qc) T). reflexivity. Qed.

Lemma C157_one_to_one_pf :
  forall ious n t g q, (forall row, In row ious -> length row = n) -> match_boxes ious n t = Ok (g, q) ->
    forall i i' j, nth_error q i = Some (Some j) -> nth_error q i' = Some (Some j) -> i = i'.
Proof.
  intros ious n t g q H M i i' j E E'. destruct (Qclt_le_dec t 0) as [L|L]; [rewrite (C157_negative_threshold_refused_pf ious n t L) in M; discriminate M|].
  destruct (C157_greedy_matching_pf ious n t H L) as (g' & q' & M' & _ & A & _). rewrite M in M'. injection M' as <- <-.
  apply A in E. apply A in E'. rewrite E in E'. injection E' as <-. reflexivity.
Qed.

Definition of_class (c : Z) (b : box) : bool := Qc_eqb (b_class b) (qz c).

Definition in_range (r : num * num) (b : box) : bool := num_leb (fst r) (Fin (size b)) && num_leb (Fin (size b)) (snd r).

(** The k most confident, most confident first. *)

Definition most_confident (k : option Z) (l best : list box) : Prop :=
  exists rest, Permutation (best ++ rest) l /\
    length best = match k with Some k => Nat.min (Z.to_nat k) (length l) | None => length l end /\
    StronglySorted (fun a b => (b_confidence b <= b_confidence a)%Qc) best /\
    forall x y, In x best -> In y rest -> (b_confidence y <= b_confidence x)%Qc.

(** The prediction that took ground truth j. *)

Definition taker (taken : list (option nat)) (j : nat) : option nat :=
  find (fun i => match nth_error taken i with Some (Some j') => Nat.eqb j' j | _ => false end) (seq 0 (length taken)).

Definition alone (taken : list (option nat)) (i : nat) : bool :=
  match nth_error taken i with Some (Some _) => false | _ => true end.

(** One pair per object, one per detection that found none. *)

Definition expected_pairs (r : num * num) (best objects : list box) (taken : list (option nat)) (w : Qc) : list (Qc * Qc * Qc) :=
  map (fun j => (1%Qc, match taker taken j with Some i => b_confidence (nth i best []) | None => 0%Qc end, w)) (seq 0 (length objects)) ++
  map (fun i => (0%Qc, b_confidence (nth i best []), w)) (filter (fun i => alone taken i && in_range r (nth i best [])) (seq 0 (length best))).

Definition given {A} (d : A) (o : option A) : A := match o with Some x => x | None => d end.

Definition good_settings (st : detection_settings) : Prop :=
  (0 <= ds_class_id st)%Z /\ (0 <= ds_iou_threshold st)%Qc /\ num_leb (snd (ds_area_range st)) (fst (ds_area_range st)) = false /\
  (forall k, ds_max_num_detections st = Some k -> 0 < k)%Z /\ (forall w, ds_class_weight st = Some w -> 0 <= w)%Qc.

Lemma filter_class l c : filter_boxes_by_class l [c] = filter (of_class c) l.
Proof. unfold filter_boxes_by_class. apply filter_ext. intros b. cbn [existsb]. apply orb_false_r. Qed.

Lemma select_map {A} (f : A -> bool) l : select (map f l) l = filter f l.
Proof. unfold select. induction l as [|x l IH]; [reflexivity|]. cbn [map combine filter snd]. destruct (f x); cbn [map fst]; rewrite IH; reflexivity. Qed.

Lemma check_ok bs r : num_leb (snd r) (fst r) = false -> (forall b, In b bs -> proper b) -> check_boxes_in_area_range bs r = Ok (map (in_range r) bs).
Proof. intros R H. unfold check_boxes_in_area_range. rewrite R, (area_ok bs H). cbn [bind]. rewrite map_map. reflexivity. Qed.

Lemma map_nth_seq {A} (d : A) l : map (fun i => nth i l d) (seq 0 (length l)) = l.
Proof. induction l as [|x l IH]; [reflexivity|]. cbn [length seq map nth]. f_equal. rewrite <- seq_shift, map_map. exact IH. Qed.

Lemma filter_map_comm {A B} (f : A -> B) (p : B -> bool) l : filter p (map f l) = map f (filter (fun x => p (f x)) l).
Proof. induction l as [|x l IH]; [reflexivity|]. cbn [map filter]. rewrite IH. destruct (p (f x)); reflexivity. Qed.

Lemma select_nth {A} (d : A) : forall l tags, length tags = length l ->
  select tags l = map (fun i => nth i l d) (filter (fun i => nth i tags false) (seq 0 (length l))).
Proof.
  induction l as [|x l IH]; intros [|t tags] L; try discriminate L; [reflexivity|]. injection L as L. specialize (IH tags L).
  unfold select in *. cbn [length seq].
  assert (E : map (fun i => nth i (x :: l) d) (filter (fun i => nth i (t :: tags) false) (seq 1 (length l))) = map fst (filter snd (combine l tags))).
  { rewrite IH, <- seq_shift, filter_map_comm, map_map. reflexivity. }
  destruct t; cbn [combine filter snd]; [change (nth 0 (true :: tags) false) with true|change (nth 0 (false :: tags) false) with false]; cbn iota; [cbn [map]; rewrite E|rewrite E]; reflexivity.
Qed.

Lemma combine_repeat {A B} (x : A) (l : list B) : combine (repeat x (length l)) l = map (pair x) l.
Proof. induction l as [|y l IH]; [reflexivity|]. cbn. f_equal. exact IH. Qed.

Lemma combine_const {A B C} (w : C) (l : list A) : forall m : list B, length m = length l -> combine l (map (fun _ => w) m) = map (fun x => (x, w)) l.
Proof. induction l as [|y l IH]; intros [|z m] L; try discriminate L; [reflexivity|]. injection L as L. cbn. f_equal. apply IH. exact L. Qed.

Lemma combine_app2 {A B} : forall (a : list A) (b : list B) a' b', length a = length b -> combine (a ++ a') (b ++ b') = combine a b ++ combine a' b'.
Proof. induction a as [|x a IH]; intros [|y b] a' b' L; try discriminate L; [reflexivity|]. injection L as L. cbn. f_equal. apply IH. exact L. Qed.

Lemma sort_perm l : Permutation (sort_boxes_by_confidence l) l.
Proof. apply py_sorted_perm. Qed.

Lemma sort_sorted l : StronglySorted (fun a b => (b_confidence b <= b_confidence a)%Qc) (sort_boxes_by_confidence l).
Proof.
  assert (H : StronglySorted (fun a b => Qc_leb (b_confidence b) (b_confidence a) = true) (sort_boxes_by_confidence l)).
  { apply py_sorted_sorted.
    - intros x y E. apply Qc_leb_gt in E. apply Qc_leb_le, Qclt_le_weak, E.
    - intros x y z E F. apply Qc_leb_le in E. apply Qc_leb_le in F. apply Qc_leb_le. qc_lra. }
  revert H. generalize (sort_boxes_by_confidence l) as m. induction m as [|x m IH]; intros H; [constructor|]. inversion H; subst. constructor; [apply IH; assumption|].
  rewrite Forall_forall in *. intros y I. apply Qc_leb_le. auto.
Qed.

Lemma sorted_cut {A} (R : A -> A -> Prop) n : forall l, StronglySorted R l -> StronglySorted R (firstn n l) /\ forall x y, In x (firstn n l) -> In y (skipn n l) -> R x y.
Proof.
  induction n as [|n IH]; intros l H; [split; [constructor|intros x y []]|]. destruct l as [|z l]; [split; [constructor|intros x y []]|].
  inversion H as [|? ? H1 H2]; subst. destruct (IH l H1) as [P Q]. cbn [firstn skipn]. rewrite Forall_forall in H2. split.
  - constructor; [exact P|]. rewrite Forall_forall. intros y I. apply H2. rewrite <- (firstn_skipn n l). apply in_or_app. auto.
  - intros x y [<-|I] J; [|apply Q; assumption]. apply H2. rewrite <- (firstn_skipn n l). apply in_or_app. auto.
Qed.

Lemma cut_most_confident k l : (forall n, k = Some n -> 0 < n)%Z ->
  most_confident k l (match k with Some k => firstn (Z.to_nat k) (sort_boxes_by_confidence l) | None => sort_boxes_by_confidence l end).
Proof.
  intros K. destruct k as [k|].
  - exists (skipn (Z.to_nat k) (sort_boxes_by_confidence l)). rewrite firstn_skipn. split; [apply sort_perm|].
    split; [rewrite firstn_length, (Permutation_length (sort_perm l)); reflexivity|]. apply sorted_cut. apply sort_sorted.
  - exists []. rewrite app_nil_r. split; [apply sort_perm|]. split; [apply Permutation_length, sort_perm|]. split; [apply sort_sorted|]. intros x y _ [].
Qed.

Lemma most_confident_perm k l l' best : Permutation l l' -> most_confident k l best -> most_confident k l' best.
Proof.
  intros P (rest & A & B & C). exists rest. split; [rewrite A; exact P|]. rewrite <- (Permutation_length P). auto.
Qed.

Lemma found_first (g : list (option nat)) (conf : nat -> Qc) :
  Permutation (map conf (flat_map (fun m => match m with Some i => [i] | None => [] end) g) ++ repeat 0%Qc (length (filter unmatched g)))
    (map (fun m => match m with Some i => conf i | None => 0%Qc end) g).
Proof.
  induction g as [|[i|] g IH]; cbn [flat_map map filter unmatched length repeat app]; [constructor|apply perm_skip; exact IH|].
  rewrite <- Permutation_middle. apply perm_skip. exact IH.
Qed.

Lemma taker_spec g q : (forall i j, nth_error g j = Some (Some i) <-> nth_error q i = Some (Some j)) -> forall j, (j < length g)%nat -> nth j g None = taker q j.
Proof.
  intros H j L. unfold taker. destruct (find _ (seq 0 (length q))) as [i|] eqn:F.
  - apply find_some in F. destruct F as [_ F]. destruct (nth_error q i) as [[j'|]|] eqn:E; try discriminate F. apply Nat.eqb_eq in F. subst j'.
    apply H in E. apply nth_error_nth with (d := None) in E. exact E.
  - destruct (nth j g None) as [i|] eqn:E; [|reflexivity]. assert (G : nth_error g j = Some (Some i)) by (rewrite <- E; apply nth_error_nth'; exact L).
    apply H in G. assert (I : In i (seq 0 (length q))) by (apply in_seq; split; [lia|]; apply nth_error_Some; rewrite G; discriminate).
    apply (find_none _ _ F) in I. rewrite G, Nat.eqb_refl in I. discriminate I.
Qed.

Lemma greedy_ext ov ov' c n m q : (forall i j, (i < n)%nat -> (j < m)%nat -> ov i j = ov' i j) -> greedy ov c n m q -> greedy ov' c n m q.
Proof.
  intros E [L G]. split; [exact L|]. intros i Li. specialize (G i Li). destruct (nth_error q i) as [[j|]|].
  - destruct G as (A & B & C & D). rewrite <- (E i j Li A). split; [exact A|]. split; [exact B|]. split; [exact C|].
    intros j' Lj F. rewrite <- (E i j' Li Lj). apply D; assumption.
  - intros j' Lj F. rewrite <- (E i j' Li Lj). apply G; assumption.
  - intros j' Lj F. rewrite <- (E i j' Li Lj). apply G; assumption.
Qed.

Lemma C158_pairs_pf :
  forall st gt preds weight, good_settings st ->
    (forall b, In b gt \/ In b preds -> of_class (ds_class_id st) b = true -> proper b) ->
    exists best taken ps,
      let objects := filter (in_range (ds_area_range st)) (filter (of_class (ds_class_id st)) gt) in
      most_confident (ds_max_num_detections st) (filter (of_class (ds_class_id st)) preds) best /\
      greedy (fun i j => iou (nth i best []) (nth j objects [])) (needed (ds_iou_threshold st)) (length best) (length objects) taken /\
      detection_process st (DetectionExtracts (Rows 5 gt) (Rows 6 preds) weight) = Ok ps /\
      Permutation ps (expected_pairs (ds_area_range st) best objects taken (given 1%Qc weight * given 1%Qc (ds_class_weight st))).
Proof.
  intros st gt preds weight (S1 & S2 & S3 & S4 & S5) H.
  unfold detection_process. cbn [de_labels de_predictions de_weight columns_at_least Nat.leb negb boxes_to_label_prediction_example_weight Nat.eqb andb].
  replace (match ds_max_num_detections st with Some k => (k <=? 0)%Z | None => false end) with false
    by (symmetry; destruct (ds_max_num_detections st) as [k|]; [apply Z.leb_gt, S4; reflexivity|reflexivity]).
  replace (ds_class_id st <? 0)%Z with false by (symmetry; apply Z.ltb_ge; exact S1).
  replace (match ds_class_weight st with Some w => Qc_ltb w 0%Qc | None => false end) with false
    by (symmetry; destruct (ds_class_weight st) as [w|]; [apply Qc_ltb_ge, S5; reflexivity|reflexivity]).
  rewrite !filter_class. set (c := ds_class_id st) in *. set (r := ds_area_range st) in *.
  unfold filter_boxes_by_area_range. rewrite check_ok; [|exact S3|intros b I; apply filter_In in I; destruct I; auto]. cbn [bind]. rewrite select_map.
  set (objects := filter (in_range r) (filter (of_class c) gt)).
  set (cl := filter (of_class c) (sort_boxes_by_confidence preds)).
  pose proof (cut_most_confident (ds_max_num_detections st) cl S4) as MC.
  set (best := match ds_max_num_detections st with Some k => firstn (Z.to_nat k) (sort_boxes_by_confidence cl) | None => sort_boxes_by_confidence cl end) in *.
  assert (PC : Permutation cl (filter (of_class c) preds)) by (apply filter_perm, sort_perm).
  assert (HB : forall b, In b best -> proper b).
  { intros b I. destruct MC as (rest & P & _). assert (J : In b cl) by (apply (Permutation_in b P); apply in_or_app; auto).
    apply (Permutation_in b PC) in J. apply filter_In in J. destruct J; auto. }
  assert (HO : forall b, In b objects -> proper b) by (intros b I; apply filter_In in I; destruct I as [I _]; apply filter_In in I; destruct I; auto).
  unfold compute_ious_for_image. rewrite (area_ok best HB), (area_ok objects HO). cbn [bind].
  set (ious := map (fun a => map (iou a) objects) best).
  assert (HL : forall row, In row ious -> length row = length objects) by (intros row I; apply in_map_iff in I; destruct I as (a & <- & _); apply map_length).
  destruct (C157_greedy_matching_pf ious (length objects) (ds_iou_threshold st) HL S2) as (g & q & M & Lg & Inv & Gr). rewrite M. cbn [bind].
  rewrite (check_ok best r S3 HB). cbn [bind].
  assert (Lb : length ious = length best) by apply map_length.
  assert (Lq : length q = length best) by (destruct Gr as [L _]; congruence).
  set (tags := map (fun tm => fst tm && unmatched (snd tm)) (combine (map (in_range r) best) q)).
  assert (Lt : length tags = length best) by (unfold tags; rewrite map_length, combine_length, map_length, Lq; apply Nat.min_id).
  exists best, q. eexists. cbn zeta. split; [apply (most_confident_perm _ cl); assumption|]. split; [|split; [reflexivity|]].
  - rewrite <- Lb. apply greedy_ext with (ov := ov_of ious); [|exact Gr]. intros i j Li Lj. unfold ov_of, ious. rewrite Lb in Li.
    rewrite (nth_indep _ [] ((fun a => map (iou a) objects) [])) by (rewrite map_length; exact Li). rewrite (map_nth (fun a => map (iou a) objects)).
    rewrite (nth_indep _ 0%Qc (iou (nth i best []) [])) by (rewrite map_length; exact Lj). apply map_nth.
  - set (w := (given 1 weight * given 1 (ds_class_weight st))%Qc).
    change ((match weight with Some x => x | None => 1 end * match ds_class_weight st with Some x0 => x0 | None => 1 end)%Qc) with w.
    set (lone := select tags best).
    set (found := map (fun i => b_confidence (nth i best [])) (flat_map (fun m => match m with Some i => [i] | None => [] end) g)).
    assert (Lf : length (found ++ repeat 0%Qc (length (filter unmatched g))) = length objects).
    { unfold found. rewrite (Permutation_length (found_first g (fun i => b_confidence (nth i best [])))), map_length. exact Lg. }
    rewrite combine_const by (rewrite combine_length, !app_length, !repeat_length; rewrite app_length, repeat_length in Lf; rewrite map_length; lia).
    rewrite (app_assoc found). rewrite combine_app2 by (rewrite repeat_length; symmetry; exact Lf). rewrite <- Lf at 1.
    rewrite <- (map_length b_confidence lone) at 1. rewrite !combine_repeat. rewrite map_app, !map_map. unfold expected_pairs. apply Permutation_app.
    + unfold found. rewrite (found_first g (fun i => b_confidence (nth i best []))). rewrite map_map.
      rewrite <- (map_nth_seq None g) at 1. rewrite map_map, Lg. apply Permutation_refl'. apply map_ext_in. intros j I. apply in_seq in I.
      rewrite (taker_spec g q Inv) by lia. destruct (taker q j); reflexivity.
    + assert (EL : lone = map (fun i => nth i best []) (filter (fun i => nth i tags false) (seq 0 (length best)))) by (apply select_nth; exact Lt).
      rewrite EL, map_map. match goal with |- Permutation (map ?f ?a) (map _ ?b) => assert (EF : a = b); [|rewrite EF; apply Permutation_refl] end. apply filter_ext_in. intros i I. apply in_seq in I.
      unfold tags. change false with ((fun tm => fst tm && unmatched (snd tm)) (false, @None nat)). rewrite map_nth, combine_nth by (rewrite map_length; symmetry; exact Lq).
      cbn [fst snd]. rewrite (nth_indep _ false (in_range r [])) by (rewrite map_length; lia). rewrite map_nth.
      rewrite andb_comm. f_equal. unfold alone. rewrite (nth_error_nth' q None) by lia. destruct (nth i q None); reflexivity.
Qed.

Lemma C158_refused_pf :
  forall st gt preds weight, num_leb (snd (ds_area_range st)) (fst (ds_area_range st)) = true \/ (ds_iou_threshold st < 0)%Qc \/ (ds_class_id st < 0)%Z \/
      (exists k, ds_max_num_detections st = Some k /\ (k <= 0)%Z) \/ (exists w, ds_class_weight st = Some w /\ (w < 0)%Qc) ->
    detection_process st (DetectionExtracts (Rows 5 gt) (Rows 6 preds) weight) = Err ValueError.
Proof.
  intros st gt preds weight H.
  unfold detection_process. cbn [de_labels de_predictions de_weight columns_at_least Nat.leb negb boxes_to_label_prediction_example_weight Nat.eqb andb].
  assert (E : forall X Y (o : option X) (f : X -> bool) (rest rest' : res Y),
     (exists x, o = Some x /\ f x = true) \/ rest = rest' -> (if match o with Some x => f x | None => false end then rest' else rest) = rest').
  { intros X Y o f rest rest' [(x & -> & F)|F]; [rewrite F; reflexivity|]. destruct o as [x|]; [destruct (f x)|]; auto. }
  assert (B : forall X Y (e : exn) (a : res X) (f : X -> res Y), a = Err e -> bind a f = Err e) by (intros X Y e a f ->; reflexivity).
  assert (area : forall bs, (exists l, bounding_box_area bs = Ok l) \/ bounding_box_area bs = Err ValueError).
  { intros bs. unfold bounding_box_area. destruct (existsb _ bs); [auto|]. destruct (existsb _ bs); [auto|]. eauto. }
  apply B. apply E. destruct H as [H|[H|[H|[(k & H & K)|(w & H & W)]]]]; [right|right|right|left; exists k; split; [exact H|apply Z.leb_le; exact K]|right].
  - destruct (Z.ltb (ds_class_id st) 0); [reflexivity|]. apply E. right. unfold filter_boxes_by_area_range, check_boxes_in_area_range. rewrite H. reflexivity.
  - destruct (Z.ltb (ds_class_id st) 0); [reflexivity|]. apply E. right. unfold filter_boxes_by_area_range, check_boxes_in_area_range.
    destruct (num_leb (snd (ds_area_range st)) (fst (ds_area_range st))); [reflexivity|].
    destruct (area (filter_boxes_by_class gt [ds_class_id st])) as [[l1 ->]| ->]; [|reflexivity]. cbn [bind]. unfold compute_ious_for_image.
    match goal with |- context [let! _ := bounding_box_area ?bs in _] => destruct (area bs) as [[l2 ->]| ->] end; [|reflexivity].
    cbn [bind]. match goal with |- context [bounding_box_area ?bs] => destruct (area bs) as [[l3 ->]| ->] end; [|reflexivity]. cbn [bind].
    rewrite C157_negative_threshold_refused_pf by exact H. reflexivity.
  - rewrite (proj2 (Z.ltb_lt _ _) H). reflexivity.
  - destruct (Z.ltb (ds_class_id st) 0); [reflexivity|]. apply E. left. exists w. split; [exact H|apply Qc_ltb_lt; exact W].
Qed.

Lemma sorted_unique_in (l : list box) : forall m, NoDup (map b_confidence l) ->
  StronglySorted (fun a b => (b_confidence b <= b_confidence a)%Qc) l -> StronglySorted (fun a b => (b_confidence b <= b_confidence a)%Qc) m ->
  Permutation l m -> l = m.
Proof.
  induction l as [|x l IH]; intros [|y m] N S1 S2 P; auto.
  - apply Permutation_nil in P. discriminate.
  - symmetry in P. apply Permutation_nil in P. discriminate.
  - cbn [map] in N. inversion N as [|? ? N1 N2]; subst. inversion S1 as [|? ? S1' F1]; subst. inversion S2 as [|? ? S2' F2]; subst.
    rewrite Forall_forall in F1, F2.
    assert (E : x = y).
    { assert (Iy : In y (x :: l)) by (apply (Permutation_in y (Permutation_sym P)); left; reflexivity).
      destruct Iy as [|Iy]; [assumption|]. assert (Ix : In x (y :: m)) by (apply (Permutation_in x P); left; reflexivity).
      destruct Ix as [Ix|Ix]; [congruence|]. exfalso. apply N1. replace (b_confidence x) with (b_confidence y); [apply in_map; exact Iy|].
      apply Qcle_antisym; [apply F1; exact Iy|apply F2; exact Ix]. }
    subst y. f_equal. apply IH; try assumption. apply Permutation_cons_inv with x. exact P.
Qed.

Lemma C159_order_irrelevant_pf :
  forall st labels preds preds' weight c, Permutation preds preds' ->
    NoDup (map b_confidence (filter (of_class (ds_class_id st)) preds)) ->
    detection_process st (DetectionExtracts labels (Rows c preds') weight) = detection_process st (DetectionExtracts labels (Rows c preds) weight).
Proof.
  intros st labels preds preds' weight c P N. unfold detection_process. cbn [de_labels de_predictions de_weight].
  assert (E : sort_boxes_by_confidence (filter_boxes_by_class (sort_boxes_by_confidence preds) [ds_class_id st]) =
              sort_boxes_by_confidence (filter_boxes_by_class (sort_boxes_by_confidence preds') [ds_class_id st])).
  { rewrite !filter_class. apply sorted_unique_in; try apply sort_sorted.
    - apply (Permutation_NoDup (l := map b_confidence (filter (of_class (ds_class_id st)) preds))); [|exact N].
      apply Permutation_map. rewrite (sort_perm (filter _ (sort_boxes_by_confidence preds))). symmetry. apply filter_perm, sort_perm.
    - rewrite (sort_perm (filter _ (sort_boxes_by_confidence preds))), (sort_perm (filter _ (sort_boxes_by_confidence preds'))).
      apply filter_perm. rewrite !sort_perm. exact P. }
  destruct (columns_at_least 5 labels); [|reflexivity]. cbn [negb]. cbn [columns_at_least]. destruct (Nat.leb 6 c); [|reflexivity]. cbn [negb].
  destruct labels as [cg gt|]; [|reflexivity]. unfold boxes_to_label_prediction_example_weight. rewrite E. reflexivity.
Qed.

Record image := Image { im_objects : list box; im_predictions : list box; im_weight : option Qc }.

Definition pairs_of (st : detection_settings) (im : image) : res (list (Qc * Qc * Qc)) :=
  detection_process st (DetectionExtracts (Rows 5 (im_objects im)) (Rows 6 (im_predictions im)) (im_weight im)).

Definition objects_of (st : detection_settings) (im : image) : list box :=
  filter (in_range (ds_area_range st)) (filter (of_class (ds_class_id st)) (im_objects im)).

(** How the detections of an image are matched. *)

Definition matched (st : detection_settings) (im : image) (bt : list box * list (option nat)) : Prop :=
  most_confident (ds_max_num_detections st) (filter (of_class (ds_class_id st)) (im_predictions im)) (fst bt) /\
  greedy (fun i j => iou (nth i (fst bt) []) (nth j (objects_of st im) [])) (needed (ds_iou_threshold st))
    (length (fst bt)) (length (objects_of st im)) (snd bt).

(** Objects found, and detections of nothing, with more confidence than t. *)

Definition found_objects (st : detection_settings) (t : Qc) (im : image) (bt : list box * list (option nat)) : nat :=
  length (filter (fun j => match taker (snd bt) j with Some i => Qc_ltb t (b_confidence (nth i (fst bt) [])) | None => false end)
            (seq 0 (length (objects_of st im)))).

Definition false_alarms (st : detection_settings) (t : Qc) (bt : list box * list (option nat)) : nat :=
  length (filter (fun i => alone (snd bt) i && in_range (ds_area_range st) (nth i (fst bt) []) && Qc_ltb t (b_confidence (nth i (fst bt) [])))
            (seq 0 (length (fst bt)))).

Definition image_weight (weighted : bool) (st : detection_settings) (im : image) : Qc :=
  if weighted then (given 1 (im_weight im) * given 1 (ds_class_weight st))%Qc else 1%Qc.

Definition pair_tp (weighted : bool) (t : Qc) (x : Qc * Qc * Qc) : Qc :=
  let '(l, p, w) := x in if Qc_ltb t p then ((if weighted then w else 1) * l)%Qc else 0%Qc.

Definition pair_fp (weighted : bool) (t : Qc) (x : Qc * Qc * Qc) : Qc :=
  let '(l, p, w) := x in if Qc_ltb t p then ((if weighted then w else 1) * (1 - l))%Qc else 0%Qc.

Definition pair_pos (weighted : bool) (x : Qc * Qc * Qc) : Qc :=
  let '(l, p, w) := x in ((if weighted then w else 1) * l)%Qc.

Lemma qn_S k : qn (S k) = (1 + qn k)%Qc.
Proof. unfold qn. rewrite Nat2Z.inj_succ. unfold Z.succ. rewrite Z.add_comm. rewrite qz_plus. reflexivity. Qed.

Lemma qsum_count {A} (p : A -> bool) (w : Qc) l : qsum (map (fun x => if p x then w else 0%Qc) l) = (w * qn (length (filter p l)))%Qc.
Proof.
  induction l as [|x l IH]; [cbn; unfold qn; cbn; change (qz 0) with 0%Qc; ring|]. cbn [map filter]. change (qsum (?a :: ?b)) with (a + qsum b)%Qc. rewrite IH.
  destruct (p x); [cbn [length]; rewrite qn_S|]; ring.
Qed.

Lemma expected_tp weighted st im bt t : (0 <= t)%Qc ->
  qsum (map (pair_tp weighted t) (expected_pairs (ds_area_range st) (fst bt) (objects_of st im) (snd bt) (given 1 (im_weight im) * given 1 (ds_class_weight st))%Qc)) =
  (image_weight weighted st im * qn (found_objects st t im bt))%Qc.
Proof.
  intros T. unfold expected_pairs. rewrite map_app, qsum_app, !map_map. unfold found_objects. rewrite <- qsum_count.
  match goal with |- (?a + ?b = _)%Qc => assert (Z : b = 0%Qc) end.
  { apply qsum_map_zero. intros i _. unfold pair_tp. destruct (Qc_ltb t _); [|reflexivity]. destruct weighted; ring. }
  rewrite Z, Qcplus_0_r. apply qsum_map_ext. intros j _. unfold pair_tp, image_weight. destruct (taker (snd bt) j) as [i|].
  - destruct (Qc_ltb t _); [destruct weighted; ring|reflexivity].
  - replace (Qc_ltb t 0) with false by (symmetry; apply Qc_ltb_ge; exact T). reflexivity.
Qed.

Lemma expected_fp weighted st im bt t :
  qsum (map (pair_fp weighted t) (expected_pairs (ds_area_range st) (fst bt) (objects_of st im) (snd bt) (given 1 (im_weight im) * given 1 (ds_class_weight st))%Qc)) =
  (image_weight weighted st im * qn (false_alarms st t bt))%Qc.
Proof.
  unfold expected_pairs. rewrite map_app, qsum_app, !map_map. unfold false_alarms.
  match goal with |- (?a + ?b = _)%Qc => assert (Z : a = 0%Qc) end.
  { apply qsum_map_zero. intros j _. unfold pair_fp. destruct (Qc_ltb t _); [|reflexivity]. destruct weighted; ring. }
  rewrite Z, Qcplus_0_l. rewrite <- qsum_count, <- qsum_map_if. apply qsum_map_ext. intros i _. unfold pair_fp, image_weight.
  destruct (alone (snd bt) i && in_range (ds_area_range st) (nth i (fst bt) [])); cbn [andb]; [|reflexivity].
  destruct (Qc_ltb t _); [destruct weighted; ring|reflexivity].
Qed.

Lemma expected_pos weighted st im bt :
  qsum (map (pair_pos weighted) (expected_pairs (ds_area_range st) (fst bt) (objects_of st im) (snd bt) (given 1 (im_weight im) * given 1 (ds_class_weight st))%Qc)) =
  (image_weight weighted st im * qn (length (objects_of st im)))%Qc.
Proof.
  unfold expected_pairs. rewrite map_app, qsum_app, !map_map.
  match goal with |- (?a + ?b = _)%Qc => assert (Z : b = 0%Qc) end.
  { apply qsum_map_zero. intros i _. unfold pair_pos. destruct weighted; ring. }
  rewrite Z, Qcplus_0_r. transitivity (qsum (map (fun j : nat => if true then image_weight weighted st im else 0%Qc) (seq 0 (length (objects_of st im))))).
  - apply qsum_map_ext. intros j _. unfold pair_pos, image_weight. destruct weighted; ring.
  - rewrite (qsum_count (fun _ => true)). f_equal. f_equal. rewrite <- (seq_length (length (objects_of st im)) 0) at 2. f_equal.
    generalize (seq 0 (length (objects_of st im))) as l. induction l as [|x l IH]; [reflexivity|]. cbn [filter]. rewrite IH. reflexivity.
Qed.

(** The pair an element of the stream carries. *)

Definition element_pairs (e : inputs_dict) : list (Qc * num) :=
  match i_label e, i_prediction e with Some (Leaf ls), Some (Leaf ps) => combine ls ps | _, _ => [] end.

Definition element_weight (weighted : bool) (e : inputs_dict) : Qc :=
  match i_weight e with Some (Leaf (w :: _)) => if weighted then w else 1%Qc | _ => 1%Qc end.

Lemma stream_sum (f : scored -> Qc) weighted (l : list inputs_dict) ps :
  Permutation l (map (fun x => snd (detection_input x)) ps) ->
  qsum (map f (scored_of element_pairs (element_weight weighted) l)) =
  qsum (map (fun x => f (fst (fst x), Fin (snd (fst x)), if weighted then snd x else 1%Qc)) ps).
Proof.
  intros P. unfold scored_of. rewrite (qsum_perm _ (map f (scored_of element_pairs (element_weight weighted) (map (fun x => snd (detection_input x)) ps)))).
  - clear P. unfold scored_of. f_equal. induction ps as [|[[x y] w] ps IH]; [reflexivity|]. cbn. f_equal. apply IH.
  - apply Permutation_map. unfold scored_of. apply Permutation_flat_map. exact P.
Qed.

Lemma C160_matrices_count_objects_pf :
  forall ap st images ths limit weighted lk pk,
    good_settings st ->
    (forall im b, In im images -> In b (im_objects im) \/ In b (im_predictions im) -> of_class (ds_class_id st) b = true -> proper b) ->
    NoDup ths -> (1 <= limit)%nat -> (forall t, In t ths -> 0 <= t)%Qc ->
    exists matching pairs,
      Forall2 (matched st) images matching /\
      mapM (pairs_of st) images = Ok pairs /\
      forall s, Permutation (map snd (inputs s)) (map (fun x => snd (detection_input x)) (concat pairs)) ->
        exists cm xm,
          outcome (confusion_combiner ap (map Fin ths) limit (histogram_options None false weighted true None) lk pk "" "") s = Ok (cm, xm) /\
          forall i, (i < length ths)%nat ->
            let t := nth i ths 0%Qc in
            tp_at cm i = qsum (map (fun x => image_weight weighted st (fst x) * qn (found_objects st t (fst x) (snd x)))%Qc (combine images matching)) /\
            fp_at cm i = qsum (map (fun x => image_weight weighted st (fst x) * qn (false_alarms st t (snd x)))%Qc (combine images matching)) /\
            (tp_at cm i + fn_at cm i = qsum (map (fun im => image_weight weighted st im * qn (length (objects_of st im))) images))%Qc.
Proof.
  intros ap st images ths limit weighted lk pk G H N L T.
  assert (M : exists matching pairs, Forall2 (matched st) images matching /\ mapM (pairs_of st) images = Ok pairs /\
    Forall2 (fun x ps => Permutation ps (expected_pairs (ds_area_range st) (fst (snd x)) (objects_of st (fst x)) (snd (snd x)) (given 1 (im_weight (fst x)) * given 1 (ds_class_weight st))%Qc))
      (combine images matching) pairs).
  { clear N L T. induction images as [|im images IH].
    - exists [], []. repeat split; constructor.
    - destruct IH as (ms & pss & A & B & C); [intros i b I; apply (H i b); right; exact I|].
      destruct (C158_pairs_pf st (im_objects im) (im_predictions im) (im_weight im) G (fun b I => H im b (or_introl eq_refl) I)) as (best & taken & ps & A1 & A2 & A3 & A4).
      exists ((best, taken) :: ms), (ps :: pss). split; [constructor; [split; assumption|exact A]|]. split.
      + cbn [mapM]. unfold pairs_of at 1. rewrite A3. cbn [bind]. rewrite B. reflexivity.
      + cbn [combine]. constructor; [exact A4|exact C]. }
  destruct M as (matching & pairs & M1 & M2 & M3). exists matching, pairs. split; [exact M1|]. split; [exact M2|]. intros s P.
  destruct (C14_confusion_counts_pf ap (map Fin ths) limit true weighted lk pk "" "" s element_pairs (element_weight weighted)) as (cm & xm & O & _ & _ & _ & _ & _ & Cells).
  - apply (NoDup_map_inj Fin); [intros x y _ _ E; injection E; auto|exact N].
  - exact L.
  - intros e I. apply (in_map snd) in I. apply (Permutation_in _ P) in I. apply in_map_iff in I. destruct I as ([[l p] w] & E & I).
    rewrite <- E. cbn [detection_input snd]. split; [|split].
    + split; [reflexivity|]. split; [exists (Leaf [Fin p]), (Leaf [Fin p]); repeat split|]. unfold carries_weight, element_weight. cbn. destruct weighted; reflexivity.
    + discriminate.
    + intros _ l' p' [E'|[]]. injection E' as <- <-. apply in_concat in I. destruct I as (ps & Ips & I).
      assert (U : l = 1%Qc \/ l = 0%Qc).
      { clear - M3 Ips I. induction M3 as [|x ps0 xs pss A B IH]; [destruct Ips|]. destruct Ips as [<-|Ips]; [|apply IH; exact Ips].
        apply (Permutation_in _ A) in I. unfold expected_pairs in I. apply in_app_or in I. destruct I as [I|I]; apply in_map_iff in I; destruct I as (k & E & _); injection E as <- _ _; auto. }
      unfold unit_label. destruct U as [-> | ->]; split; qc_lra.
  - exists cm, xm. split; [exact O|]. intros i Li. cbn zeta. set (t := nth i ths 0%Qc).
    specialize (Cells i). rewrite map_length in Cells. specialize (Cells Li). cbn zeta in Cells.
    assert (Et : nth i (map Fin ths) NaN = Fin t).
    { rewrite (nth_indep _ NaN (Fin 0%Qc)) by (rewrite map_length; exact Li). apply map_nth. }
    rewrite Et in Cells. destruct Cells as (C1 & C2 & C3 & _).
    assert (T' : (0 <= t)%Qc) by (apply T; apply nth_In; exact Li).
    assert (Sum : forall (f : Qc * Qc * Qc -> Qc) (g : image * (list box * list (option nat)) -> Qc),
      (forall im bt, qsum (map f (expected_pairs (ds_area_range st) (fst bt) (objects_of st im) (snd bt) (given 1 (im_weight im) * given 1 (ds_class_weight st))%Qc)) = g (im, bt)) ->
      qsum (map f (concat pairs)) = qsum (map g (combine images matching))).
    { intros f g E. clear - M3 E. induction M3 as [|[im bt] ps xs pss A B IH]; [reflexivity|]. cbn [concat map fst snd]. rewrite map_app, qsum_app, IH.
      change (qsum (g (im, bt) :: map g xs)) with (g (im, bt) + qsum (map g xs))%Qc. f_equal. rewrite <- E. apply qsum_perm, Permutation_map. exact A. }
    assert (TP : tp_at cm i = qsum (map (pair_tp weighted t) (concat pairs))).
    { rewrite C1, <- qsum_map_if, (stream_sum _ weighted _ (concat pairs) P). apply qsum_map_ext. intros [[l p] w] _. reflexivity. }
    assert (FP : fp_at cm i = qsum (map (pair_fp weighted t) (concat pairs))).
    { rewrite C3, <- qsum_map_if, (stream_sum _ weighted _ (concat pairs) P). apply qsum_map_ext. intros [[l p] w] _. reflexivity. }
    split; [|split].
    + rewrite TP. apply (Sum (pair_tp weighted t) (fun x => image_weight weighted st (fst x) * qn (found_objects st t (fst x) (snd x)))%Qc). intros im bt. cbn [fst snd]. apply expected_tp. exact T'.
    + rewrite FP. apply (Sum (pair_fp weighted t) (fun x => image_weight weighted st (fst x) * qn (false_alarms st t (snd x)))%Qc). intros im bt. cbn [fst snd]. apply expected_fp.
    + rewrite C1, C2. rewrite <- qsum_map_if, <- qsum_map_if, <- qsum_map_plus, (stream_sum _ weighted _ (concat pairs) P).
      transitivity (qsum (map (pair_pos weighted) (concat pairs))).
      * apply qsum_map_ext. intros [[l p] w] _. unfold predicted, not_predicted, positive_weight, sc_score, sc_weight, sc_label, pair_pos. cbn [fst snd].
        destruct (num_ltb (Fin t) (Fin p)); cbn [negb]; ring.
      * rewrite (Sum (pair_pos weighted) (fun x => image_weight weighted st (fst x) * qn (length (objects_of st (fst x))))%Qc) by (intros im bt; apply expected_pos).
        rewrite <- (map_map fst (fun im => image_weight weighted st im * qn (length (objects_of st im)))%Qc). f_equal. f_equal.
        clear - M1. induction M1; [reflexivity|]. cbn [combine map fst]. rewrite IHM1. reflexivity.
Qed.

Lemma C161_named_models_always_fail_pf :
  forall ap ths limit weighted lk pk m o s x, m <> "" \/ o <> "" -> In (detection_input x) (inputs s) ->
    is_ok (outcome (confusion_combiner ap ths limit (histogram_options None false weighted true None) lk pk m o) s) = false.
Proof.
  intros ap ths limit weighted lk pk m o s x H I. unfold confusion_combiner.
  apply (res_run_refused [] (confusion_add ap ths limit (histogram_options None false weighted true None) lk pk m o) (bcm_merge ths limit)
    (fun acc => to_matrices_and_examples ths (bcm_extract ths acc)) (detection_input x) s); [|exact I].
  intros a. destruct x as [[l p] w]. unfold confusion_add, detection_input, to_label_prediction_example_weight. cbn [snd i_label i_prediction i_weight].
  assert (OG : forall k (v : list Qc), optionally_get (Some (Leaf v)) k = Ok (Some (Leaf v))) by (intros; reflexivity).
  assert (EL : (if String.eqb lk "" then Ok (Some (Leaf [l])) else optionally_get (Some (Leaf [l])) lk) = Ok (Some (Leaf [l]))) by (rewrite OG; destruct (String.eqb lk ""); reflexivity).
  rewrite EL. cbn [bind]. destruct (String.eqb m "") eqn:Em.
  - apply String.eqb_eq in Em. destruct H as [H|H]; [contradiction|]. cbn [bind]. apply String.eqb_neq in H. rewrite H. reflexivity.
  - reflexivity.
Qed.

Lemma C161_several_models_refuted_pf :
  exists st im ps,
    pairs_of st im = Ok ps /\ ps <> [] /\
    is_ok (outcome (confusion_combiner ap_sort [Fin (Q2Qc (1#2))] 1 (histogram_options None false true true None) "" "" "" "") (Bundle (map detection_input ps))) = true /\
    outcome (confusion_combiner ap_sort [Fin (Q2Qc (1#2))] 1 (histogram_options None false true true None) "" "" "candidate" "") (Bundle (map detection_input ps)) = Err ValueError.
Proof.
  exists ex_settings, (Image [ex_box 0 0 10 10 1] [ex_seen 0 0 10 10 1 (9#10)] None). eexists. split; [vm_compute; reflexivity|].
  split; [discriminate|]. split; vm_compute; reflexivity.
Qed.

Lemma C162_area_range_refuted_pf :
  exists st g p q,
    in_range (ds_area_range st) g = false /\ (ds_iou_threshold st <= iou p g)%Qc /\
    pairs_of st (Image [g] [p] None) = Ok [(0%Qc, q, 1%Qc)] /\ (0 < q)%Qc.
Proof.
  exists (DetectionSettings 1 (Q2Qc (1#2)) (Fin 0%Qc, Fin (qz 100)) None None), (ex_box 0 0 10 11 1), (ex_seen 0 0 10 10 1 (9#10)). eexists.
  split; [vm_compute; reflexivity|]. split; [vm_compute; discriminate|]. split; [vm_compute; reflexivity|vm_compute; reflexivity].
Qed.

Lemma C162_detections_outside_partial_pf :
  forall st im ps, good_settings st ->
    (forall b, In b (im_objects im) \/ In b (im_predictions im) -> of_class (ds_class_id st) b = true -> proper b) ->
    (forall b, In b (im_predictions im) -> of_class (ds_class_id st) b = true -> in_range (ds_area_range st) b = false) ->
    pairs_of st im = Ok ps -> forall x, In x ps -> fst (fst x) = 1%Qc.
Proof.
  intros st im ps G H R E x I.
  destruct (C158_pairs_pf st (im_objects im) (im_predictions im) (im_weight im) G H) as (best & taken & ps' & A1 & _ & A3 & A4).
  unfold pairs_of in E. rewrite E in A3. injection A3 as <-. apply (Permutation_in _ A4) in I. unfold expected_pairs in I. apply in_app_or in I.
  destruct I as [I|I]; apply in_map_iff in I; destruct I as (k & <- & I); [reflexivity|]. exfalso.
  apply filter_In in I. destruct I as [I J]. apply andb_true_iff in J. destruct J as [_ J]. apply in_seq in I.
  destruct A1 as (rest & P & _). assert (K : In (nth k best []) (filter (of_class (ds_class_id st)) (im_predictions im))).
  { apply (Permutation_in _ P). apply in_or_app. left. apply nth_In. lia. }
  apply filter_In in K. destruct K as [K1 K2]. rewrite (R _ K1 K2) in J. discriminate J.
Qed.

Lemma C163_first_dictionary_wins_pf :
  forall V (dicts : list (list (string * V))) k v,
    chain_get dicts k = Some v <->
    exists pre d post, dicts = pre ++ d :: post /\ dget String.eqb d k = Some v /\ forall d', In d' pre -> dget String.eqb d' k = None.
Proof.
  intros V dicts k v. induction dicts as [|d dicts IH]; cbn [chain_get fold_right].
  - split; [discriminate|]. intros ([|? ?] & ? & ? & E & _); discriminate E.
  - fold (chain_get dicts k). destruct (dget String.eqb d k) as [u|] eqn:D.
    + split.
      * intros E. injection E as ->. exists [], d, dicts. split; [reflexivity|]. split; [exact D|intros ? []].
      * intros ([|d1 pre] & d2 & post & E & F & N); injection E as -> ->; [congruence|]. rewrite (N d1 (or_introl eq_refl)) in D. discriminate D.
    + change (chain_get dicts k = Some v <-> exists pre d0 post, d :: dicts = pre ++ d0 :: post /\ dget String.eqb d0 k = Some v /\ forall d', In d' pre -> dget String.eqb d' k = None).
      rewrite IH. split.
      * intros (pre & d0 & post & -> & F & N). exists (d :: pre), d0, post. split; [reflexivity|]. split; [exact F|]. intros d' [<-|I]; auto.
      * intros ([|d1 pre] & d2 & post & E & F & N); injection E as -> ->; [congruence|]. exists pre, d2, post. split; [reflexivity|]. split; [exact F|]. intros d' I. apply N. right. exact I.
Qed.

(** What a column contributes to each row. *)

Definition column_rows (c : column) : option (nat * list (list Qc)) :=
  match c with Flat l => Some (1%nat, map (fun x => [x]) l) | Table n rows => Some (n, rows) | OtherColumn => None end.

Lemma stack_columns_found dicts allow e : forall names cols acc,
  Forall2 (fun k c => exists col, chain_get dicts k = Some col /\ column_rows col = Some c) names cols ->
  forall rest, stack_columns dicts (names ++ rest) allow e acc = stack_columns dicts rest allow e (acc ++ cols).
Proof.
  induction names as [|k names IH]; intros cols acc F rest; inversion F as [|? c ? cs (col & A & B) F']; subst; [rewrite app_nil_r; reflexivity|].
  cbn [app stack_columns]. rewrite A. destruct col as [l|n rows|]; cbn in B; try discriminate B; injection B as <-;
    rewrite (IH cs _ F' rest), <- app_assoc; reflexivity.
Qed.

Lemma hstack_fold L : forall cols c rows, length rows = L -> (forall col, In col cols -> length (snd col) = L) ->
  exists rs, foldM (fun acc col =>
                 if Nat.eqb (length (snd acc)) (length (snd col))
                 then Ok (fst acc + fst col, map (fun ab => fst ab ++ snd ab) (combine (snd acc) (snd col)))
                 else Err ValueError) cols (c, rows) = Ok ((c + list_sum (map fst cols))%nat, rs) /\ length rs = L /\
    forall i, (i < L)%nat -> nth i rs [] = nth i rows [] ++ concat (map (fun col : nat * list (list Qc) => nth i (snd col) []) cols).
Proof.
  induction cols as [|[c' rows'] cols IH]; intros c rows E H.
  - exists rows. cbn. rewrite Nat.add_0_r. split; [reflexivity|]. split; [exact E|]. intros. rewrite app_nil_r. reflexivity.
  - cbn [foldM fst snd]. assert (E' : length rows' = L) by (apply (H (c', rows')); left; reflexivity). rewrite E, E', Nat.eqb_refl. cbn [bind].
    destruct (IH (c + c')%nat (map (fun ab => fst ab ++ snd ab) (combine rows rows'))) as (rs & A & B & C).
    { rewrite map_length, combine_length, E, E'. apply Nat.min_id. }
    { intros col I. apply H. right. exact I. }
    exists rs. split; [rewrite A; f_equal; f_equal; cbn [map list_sum fold_right fst]; unfold list_sum; lia|]. split; [exact B|]. intros i Li. rewrite (C i Li).
    change (@nil Qc) with ((fun ab : list Qc * list Qc => fst ab ++ snd ab) ([], [])) at 1. rewrite map_nth, combine_nth by congruence.
    cbn [fst snd map concat]. rewrite app_assoc. reflexivity.
Qed.

Lemma C163_rows_of_columns_pf :
  forall dicts names cols allow e L, names <> [] ->
    Forall2 (fun k c => exists col, chain_get dicts k = Some col /\ column_rows col = Some c) names cols ->
    (forall c, In c cols -> length (snd c) = L) ->
    exists rows, stack_columns dicts names allow e [] = Ok (Rows (list_sum (map fst cols)) rows) /\ length rows = L /\
      forall i, (i < L)%nat -> nth i rows [] = concat (map (fun c => nth i (snd c) []) cols).
Proof.
  intros dicts names cols allow e L NE F H. rewrite <- (app_nil_r names). rewrite (stack_columns_found dicts allow e names cols [] F []). cbn [app stack_columns].
  destruct cols as [|[c rows] cols]; [inversion F; subst; congruence|]. unfold hstack.
  destruct (hstack_fold L cols c rows (H (c, rows) (or_introl eq_refl)) (fun col I => H col (or_intror I))) as (rs & A & B & C).
  rewrite A. cbn [bind fst snd]. exists rs. split; [reflexivity|]. split; [exact B|]. intros i Li. rewrite (C i Li). reflexivity.
Qed.

Lemma C163_missing_key_pf :
  forall dicts names cols k rest allow e,
    Forall2 (fun k c => exists col, chain_get dicts k = Some col /\ column_rows col = Some c) names cols -> chain_get dicts k = None ->
    stack_columns dicts (names ++ k :: rest) allow e [] = if allow then Ok (Rows e []) else Err KeyError.
Proof.
  intros dicts names cols k rest allow e F N. rewrite (stack_columns_found dicts allow e names cols [] F). cbn [app stack_columns]. rewrite N. reflexivity.
Qed.

Lemma C163_different_lengths_refused_pf :
  forall dicts names cols allow e c0 c,
    Forall2 (fun k c => exists col, chain_get dicts k = Some col /\ column_rows col = Some c) names (c0 :: cols) ->
    In c cols -> length (snd c) <> length (snd c0) ->
    stack_columns dicts names allow e [] = Err ValueError.
Proof.
  intros dicts names cols allow e [n0 r0] c F I D. rewrite <- (app_nil_r names). rewrite (stack_columns_found dicts allow e names _ [] F []). cbn [app stack_columns]. unfold hstack.
  cbn [snd] in D. match goal with |- bind ?a _ = _ => assert (G : a = Err ValueError) end; [|rewrite G; reflexivity].
  clear F. revert n0 r0 D I. induction cols as [|[n1 r1] cols IH]; intros n0 r0 D I; [destruct I|]. cbn [foldM fst snd].
  destruct (Nat.eqb (length r0) (length r1)) eqn:E; [|reflexivity]. apply Nat.eqb_eq in E. cbn [bind].
  assert (L : length (map (fun ab : list Qc * list Qc => fst ab ++ snd ab) (combine r0 r1)) = length r0) by (rewrite map_length, combine_length, <- E; apply Nat.min_id).
  destruct I as [<-|I]; [cbn [snd] in D; congruence|]. apply IH; [rewrite L; exact D|exact I].
Qed.

Lemma C164_truncated_partial_pf :
  forall dicts k n rows allow, chain_get dicts k = Some n -> (0 < n)%Z ->
    truncate_by_num_detections dicts k rows allow = Ok (firstn (Z.to_nat n) rows).
Proof.
  intros dicts k n rows allow E P. unfold truncate_by_num_detections. rewrite E. cbn [bind]. rewrite (proj2 (Z.ltb_lt 0 n) P). cbn [andb].
  destruct (Z.ltb n (Z.of_nat (length rows))) eqn:L; [reflexivity|]. apply Z.ltb_ge in L. rewrite firstn_all2 by lia. reflexivity.
Qed.

Lemma C164_missing_number_pf :
  forall dicts k rows allow, chain_get dicts k = None ->
    truncate_by_num_detections dicts k rows allow = if allow then Ok rows else Err KeyError.
Proof. intros dicts k rows allow E. unfold truncate_by_num_detections. rewrite E. destruct allow; reflexivity. Qed.

Lemma C164_no_detections_refuted_pf :
  exists rows ps, truncate_by_num_detections [[("num_detections", 0%Z)]] "num_detections" rows false = Ok rows /\ rows <> [] /\
    pairs_of ex_settings (Image [] rows None) = Ok ps /\ ps <> [].
Proof.
  exists [ex_seen 0 0 1 1 1 (1#2)]. eexists. split; [reflexivity|]. split; [discriminate|]. split; [vm_compute; reflexivity|discriminate].
Qed.

Lemma C165_equal_bounds_refuted_pf :
  exists c lo hi, validate_object_detection_arguments (Some [c]) None (Some [lo; hi]) None "" false = Ok tt /\
    forall im, pairs_of (DetectionSettings c (Q2Qc (1#2)) (lo, hi) None None) im = Err ValueError.
Proof.
  exists 1%Z, (Fin (qz 4)), (Fin (qz 4)). split; [vm_compute; reflexivity|]. intros [g p w]. unfold pairs_of.
  apply C158_refused_pf. left. vm_compute. reflexivity.
Qed.

Lemma C165_negative_class_refuted_pf :
  exists c, validate_object_detection_arguments (Some [c]) None None None "" false = Ok tt /\
    forall im, pairs_of (DetectionSettings c (Q2Qc (1#2)) everything None None) im = Err ValueError.
Proof.
  exists (-1)%Z. split; [vm_compute; reflexivity|]. intros [g p w]. unfold pairs_of.
  apply C158_refused_pf. right. right. left. cbn. lia.
Qed.

Lemma C165_more_columns_refuted_pf :
  exists n, columns_at_least 5 (Rows n []) = true /\
    forall st gt c preds w, detection_process st (DetectionExtracts (Rows n gt) (Rows c preds) w) = Err ValueError.
Proof.
  exists 6%nat. split; [reflexivity|]. intros st gt c preds w. unfold detection_process. cbn [de_labels de_predictions columns_at_least Nat.leb negb].
  destruct c as [|[|[|[|[|[|c]]]]]]; reflexivity.
Qed.

Lemma C165_accepted_partial_pf :
  forall c w lo hi k output stacked t im,
    validate_object_detection_arguments (Some [c]) (option_map (fun x => [x]) w) (Some [lo; hi]) k output stacked = Ok tt ->
    (0 <= c)%Z -> num_leb hi lo = false -> (0 <= t)%Qc ->
    (forall b, In b (im_objects im) \/ In b (im_predictions im) -> of_class c b = true -> proper b) ->
    is_ok (pairs_of (DetectionSettings c t (lo, hi) k w) im) = true.
Proof.
  intros c w lo hi k output stacked t im V C B T H.
  assert (G : good_settings (DetectionSettings c t (lo, hi) k w)).
  { split; [exact C|]. split; [exact T|]. split; [exact B|]. cbn [ds_max_num_detections ds_class_weight]. unfold validate_object_detection_arguments in V. split.
    - intros k' ->. destruct (Z.leb k' 0) eqn:L; [|apply Z.leb_gt; exact L]. exfalso.
      destruct w as [w|]; cbn [option_map existsb length Nat.eqb orb] in V; [destruct (Qc_ltb w 0); cbn [orb bind] in V; [discriminate V|]|]; cbn [bind] in V;
        (destruct (num_ltb hi lo); cbn [bind] in V; discriminate V).
    - intros w' ->. cbn [option_map existsb length Nat.eqb orb] in V. destruct (Qc_ltb w' 0) eqn:L; [discriminate V|]. apply Qc_ltb_ge. exact L. }
  destruct (C158_pairs_pf _ (im_objects im) (im_predictions im) (im_weight im) G H) as (best & taken & ps & _ & _ & A3 & _).
  unfold pairs_of. rewrite A3. reflexivity.
Qed.

Lemma C165_rejected_pf :
  forall ids ws range k output stacked,
    validate_object_detection_arguments ids ws range k output stacked = Ok tt <->
    exists cs, ids = Some cs /\
      (forall l, ws = Some l -> length l = length cs /\ forall w, In w l -> (0 <= w)%Qc) /\
      (forall l, range = Some l -> exists lo hi, l = [lo; hi] /\ num_ltb hi lo = false) /\
      (forall n, k = Some n -> 0 < n)%Z /\ (output = "" \/ stacked = false).
Proof.
  intros ids ws range k output stacked. unfold validate_object_detection_arguments. destruct ids as [cs|]; [|split; [discriminate|intros (? & E & _); discriminate E]].
  assert (W : match ws with None => Ok tt | Some l => if existsb (fun w => Qc_ltb w 0%Qc) l then Err ValueError else if Nat.eqb (length cs) (length l) then Ok tt else Err ValueError end = Ok tt <->
    (forall l, ws = Some l -> length l = length cs /\ forall w, In w l -> (0 <= w)%Qc)).
  { destruct ws as [l|]; [|split; [intros _ l E; discriminate E|reflexivity]]. destruct (existsb (fun w => Qc_ltb w 0%Qc) l) eqn:X.
    - split; [discriminate|]. intros F. apply existsb_exists in X. destruct X as (w & I & N). apply Qc_ltb_lt in N. destruct (F l eq_refl) as [_ P]. specialize (P w I). exfalso. revert N. apply Qcle_not_lt. exact P.
    - destruct (Nat.eqb (length cs) (length l)) eqn:L.
      + apply Nat.eqb_eq in L. split; [|reflexivity]. intros _ l' E. injection E as <-. split; [congruence|]. intros w I. apply Qc_ltb_ge. apply not_true_is_false. intros Q.
        assert (Z : existsb (fun w => Qc_ltb w 0%Qc) l = true) by (apply existsb_exists; exists w; auto). congruence.
      + apply Nat.eqb_neq in L. split; [discriminate|]. intros F. destruct (F l eq_refl) as [E _]. congruence. }
  assert (R : match range with None => Ok tt | Some [lo; hi] => if num_ltb hi lo then Err ValueError else Ok tt | Some _ => Err ValueError end = Ok tt <->
    (forall l, range = Some l -> exists lo hi, l = [lo; hi] /\ num_ltb hi lo = false)).
  { destruct range as [[|lo [|hi [|x l]]]|]; try (split; [discriminate|intros F; destruct (F _ eq_refl) as (? & ? & E & _); discriminate E]).
    - destruct (num_ltb hi lo) eqn:B; split; try discriminate.
      + intros F. destruct (F _ eq_refl) as (? & ? & E & N). injection E as <- <-. congruence.
      + intros _ l E. injection E as <-. eauto.
      + reflexivity.
    - split; [intros _ l E; discriminate E|reflexivity]. }
  assert (K : match k with Some k => if Z.leb k 0 then Err ValueError else Ok tt | None => Ok tt end = Ok tt <-> (forall n, k = Some n -> 0 < n)%Z).
  { destruct k as [k|]; [|split; [intros _ n E; discriminate E|reflexivity]]. destruct (Z.leb k 0) eqn:L.
    - apply Z.leb_le in L. split; [discriminate|]. intros F. specialize (F k eq_refl). lia.
    - apply Z.leb_gt in L. split; [|reflexivity]. intros _ n E. injection E as <-. exact L. }
  assert (D : (if negb (String.eqb output "") && stacked then Err ValueError else Ok tt) = Ok tt <-> output = "" \/ stacked = false).
  { destruct (String.eqb output "") eqn:E; [apply String.eqb_eq in E; split; auto|]. apply String.eqb_neq in E. destruct stacked; cbn; [split; [discriminate|intros [|]; congruence]|split; auto]. }
  revert W R K D.
  match goal with |- (?a = _ <-> _) -> (?b = _ <-> _) -> (?c = _ <-> _) -> (?d = _ <-> _) -> _ => generalize a as ea; generalize b as eb; generalize c as ec; generalize d as ed end.
  intros ed ec eb ea W R K D. split.
  - intros E. exists cs. split; [reflexivity|]. destruct ea as [[]|]; [|discriminate E]. destruct eb as [[]|]; [|discriminate E]. destruct ec as [[]|]; [|discriminate E]. cbn [bind] in E.
    split; [apply W; reflexivity|]. split; [apply R; reflexivity|]. split; [apply K; reflexivity|]. apply D. exact E.
  - intros (cs' & E & A & B & C & F). injection E as <-. apply W in A. apply R in B. apply K in C. apply D in F. subst. reflexivity.
Qed.

Definition is_number (x : num) : Prop := exists q, x = Fin q.

Lemma numbers_in l q : In q (flat_map (fun x => match x with Fin q => [q] | _ => [] end) l) <-> In (Fin q) l.
Proof.
  rewrite in_flat_map. split.
  - intros (x & I & J). destruct x as [| |q'|]; cbn [In] in J; [contradiction|contradiction| |contradiction].
    destruct J as [<-|[]]. exact I.
  - intros I. exists (Fin q). split; [exact I|left; reflexivity].
Qed.

Lemma qsum_between a b l : (forall q, In q l -> a <= q /\ q <= b)%Qc -> (qn (length l) * a <= qsum l /\ qsum l <= qn (length l) * b)%Qc.
Proof.
  induction l as [|x l IH]; intros H; [change (qn (length [])) with 0%Qc; change (qsum []) with 0%Qc; split; qc_lra|].
  change (qsum (x :: l)) with (x + qsum l)%Qc. cbn [length]. rewrite qn_S. destruct (H x (or_introl eq_refl)). destruct IH as [I1 I2]; [intros q I; apply H; right; exact I|].
  assert (E1 : ((1 + qn (length l)) * a = a + qn (length l) * a)%Qc) by ring. assert (E2 : ((1 + qn (length l)) * b = b + qn (length l) * b)%Qc) by ring. rewrite E1, E2. split; qc_lra.
Qed.

Lemma qn_pos' k : (0 < qn (S k))%Qc.
Proof. rewrite qn_S. assert (0 <= qn k)%Qc by (induction k as [|k IH]; [apply Qcle_refl|rewrite qn_S; qc_lra]). qc_lra. Qed.

Lemma C166_average_pf :
  forall l, (nanmean l = NaN <-> forall x, In x l -> ~ is_number x) /\
    forall m, nanmean l = Fin m ->
      (forall a b, (forall q, In (Fin q) l -> a <= q /\ q <= b) -> a <= m /\ m <= b)%Qc /\
      exists qs, (forall x, In (Fin x) l <-> In x qs) /\ (m * qn (length qs) = qsum qs)%Qc /\
        length qs = length (filter (fun x => match x with Fin _ => true | _ => false end) l).
Proof.
  intros l. unfold nanmean. cbn zeta. pose proof (numbers_in l) as N.
  assert (Len : length (flat_map (fun x => match x with Fin q => [q] | _ => [] end) l) = length (filter (fun x => match x with Fin _ => true | _ => false end) l)).
  { clear N. induction l as [|x l IH]; [reflexivity|]. destruct x; cbn [flat_map filter length app]; rewrite <- ?IH; reflexivity. }
  destruct (flat_map _ l) as [|q qs] eqn:E; clear E.
  - split; [|intros m E; discriminate E]. split; [|reflexivity]. intros _ x I [q ->]. apply N in I. destruct I.
  - split; [split; [discriminate|intros H; exfalso; apply (H (Fin q)); [apply N; left; reflexivity|exists q; reflexivity]]|].
    intros m E. injection E as E.
    assert (P : (0 < qn (length (q :: qs)))%Qc) by apply qn_pos'. assert (P' : qn (length (q :: qs)) <> 0%Qc) by (intros Z; rewrite Z in P; discriminate P).
    assert (M : (m * qn (length (q :: qs)) = qsum (q :: qs))%Qc).
    { rewrite <- E. unfold Qcdiv. rewrite <- Qcmult_assoc, (Qcmult_comm (/ _)), Qcmult_inv_r by exact P'. apply Qcmult_1_r. }
    split; [|exists (q :: qs); split; [intros x; symmetry; apply N|split; [exact M|exact Len]]].
    intros a b H. destruct (qsum_between a b (q :: qs)) as [A B]; [intros x I; apply H; apply N; exact I|]. rewrite <- M, (Qcmult_comm m) in A, B. clear - A B P.
    split; [apply Qcmult_lt_0_le_reg_r with (z := qn (length (q :: qs)))|apply Qcmult_lt_0_le_reg_r with (z := qn (length (q :: qs)))]; try exact P; rewrite ?(Qcmult_comm _ (qn _)); assumption.
Qed.

Lemma C166_mean_over_classes_pf :
  forall average ts cs ws a b m, (forall t c w q, average t c w = Fin q -> a <= q /\ q <= b)%Qc ->
    coco_mean_average average ts cs ws = Fin m -> (a <= m /\ m <= b)%Qc.
Proof.
  intros average ts cs ws a b m H E. unfold coco_mean_average in E. apply (proj2 (C166_average_pf _) m) in E. destruct E as [E _]. apply E. intros q I.
  apply in_flat_map in I. destruct I as (t & _ & I). apply in_map_iff in I. destruct I as ([c w] & I & _). cbn [fst snd] in I. exact (H _ _ _ _ I).
Qed.

Lemma C166_every_class_pf :
  forall average ts cs ws m,
    coco_mean_average average ts cs ws = Fin m ->
    let thresholds := match ts with Some l => l | None => map (fun k => qn k * Q2Qc (1 # 20))%Qc (seq 10 10) end in
    let value t i := match average t (nth i cs 0%Z) (match ws with Some l => nth i l 0%Qc | None => 1%Qc end) with Fin q => [q] | _ => [] end in
    (forall l, ws = Some l -> length l = length cs) ->
    (m * qn (length (flat_map (fun t => flat_map (value t) (seq 0 (length cs))) thresholds)) =
     qsum (flat_map (fun t => flat_map (value t) (seq 0 (length cs))) thresholds))%Qc.
Proof.
  intros average ts cs ws m E thresholds value L. unfold coco_mean_average in E. cbv zeta in E.
  set (l := flat_map _ _) in E.
  assert (V : flat_map (fun x => match x with Fin q => [q] | _ => [] end) l = flat_map (fun t => flat_map (value t) (seq 0 (length cs))) thresholds).
  { subst l. replace (match ts with Some ts0 => ts0 | None => coco_iou_thresholds end) with thresholds.
    2: { unfold thresholds. destruct ts; auto. vm_compute. repeat (f_equal; try (apply Qc_is_canon; reflexivity)). }
    induction thresholds as [|t ths IH]; auto. cbn [flat_map]. rewrite flat_map_app, IH. f_equal. clear IH.
    rewrite flat_map_concat_map, map_map, <- flat_map_concat_map.
    assert (C : combine cs (match ws with Some ws0 => ws0 | None => map (fun _ => 1%Qc) cs end) =
                map (fun i => (nth i cs 0%Z, match ws with Some l => nth i l 0%Qc | None => 1%Qc end)) (seq 0 (length cs))).
    { assert (G : forall (a : list Z) (b : list Qc), length b = length a -> combine a b = map (fun i => (nth i a 0%Z, nth i b 0%Qc)) (seq 0 (length a))).
      { induction a as [|x a IHa]; intros [|y b] H; cbn in H; try discriminate; auto. cbn [combine length seq map nth].
        f_equal. rewrite <- seq_shift, map_map. apply IHa. lia. }
      destruct ws as [w|].
      - apply G, L. reflexivity.
      - rewrite G by apply map_length. apply map_ext_in. intros i I. apply in_seq in I. f_equal.
        rewrite (nth_indep _ 0%Qc 1%Qc) by (rewrite map_length; lia). apply (map_nth (fun _ : Z => 1%Qc) cs 0%Z). }
    rewrite C. rewrite flat_map_concat_map, map_map, <- flat_map_concat_map. reflexivity. }
  unfold nanmean in E. rewrite V in E. destruct (flat_map _ thresholds) as [|q qs] eqn:Q; [discriminate|].
  inversion E; subst m. unfold Qcdiv. rewrite <- Qcmult_assoc, (Qcmult_comm (/ _)), Qcmult_inv_r, Qcmult_1_r; [reflexivity|].
  intro Z. unfold qn in Z. apply (qz_inj _ 0) in Z. cbn [length] in Z. lia.
Qed.

Lemma StronglySorted_map_seq (f : nat -> Qc) : (forall i j, (i < j)%nat -> (f i < f j)%Qc) -> forall n s, StronglySorted Qclt (map f (seq s n)).
Proof.
  intros H. induction n as [|n IH]; intros s; [constructor|]. cbn [seq map]. constructor; [apply IH|]. apply Forall_forall. intros x I. apply in_map_iff in I.
  destruct I as (j & <- & I). apply in_seq in I. apply H. lia.
Qed.

Lemma qn_lt i j : (i < j)%nat -> (qn i < qn j)%Qc.
Proof. intros L. unfold qn. apply (proj1 (qz_lt _ _)). lia. Qed.

Lemma C166_confidence_thresholds_pf :
  forall n, (2 <= n)%nat -> (Z.of_nat (n - 1) < 10 ^ 12)%Z ->
    length (coco_thresholds (Some n)) = n /\ StronglySorted Qclt (coco_thresholds (Some n)) /\
    forall t, In t (coco_thresholds (Some n)) -> (0 < t /\ t < 1)%Qc.
Proof.
  intros n L B. unfold coco_thresholds. set (e := Q2Qc (1 # 1000000000000)).
  assert (E0 : (0 < e)%Qc) by reflexivity. assert (E1 : (e < 1 - e)%Qc) by reflexivity.
  assert (P : (0 < qn (n - 1))%Qc) by (replace (n - 1)%nat with (S (n - 2)) by lia; apply qn_pos').
  assert (PI : (0 < / qn (n - 1))%Qc).
  { apply Qcnot_le_lt. intros Z. assert (D : (qn (n - 1) * / qn (n - 1) = 1)%Qc) by (apply Qcmult_inv_r; intros Z'; rewrite Z' in P; discriminate P).
    assert (Y : (/ qn (n - 1) * qn (n - 1) <= 0 * qn (n - 1))%Qc) by (apply Qcmult_le_compat_r; [exact Z|apply Qclt_le_weak; exact P]).
    rewrite Qcmult_comm, D, Qcmult_0_l in Y. exact (Y eq_refl). }
  assert (D : (qn (n - 1) * / qn (n - 1) = 1)%Qc) by (apply Qcmult_inv_r; intros Z; rewrite Z in P; discriminate P).
  assert (C : (e < / qn (n - 1))%Qc).
  { assert (X : (e * qn (n - 1) < 1)%Qc).
    { assert (Y : (qn (n - 1) * e < qz (10 ^ 12) * e)%Qc) by (apply Qcmult_lt_compat_r; [exact E0|unfold qn; apply (proj1 (qz_lt _ _)); exact B]).
      assert (Z : (qz (10 ^ 12) * e = 1)%Qc) by (apply Qc_is_canon; reflexivity). rewrite Z, Qcmult_comm in Y. exact Y. }
    assert (Y : (e * qn (n - 1) * / qn (n - 1) < 1 * / qn (n - 1))%Qc) by (apply Qcmult_lt_compat_r; assumption).
    rewrite <- Qcmult_assoc, D, Qcmult_1_r, Qcmult_1_l in Y. exact Y. }
  set (f := fun i => (qn (i + 1) / qn (n - 1))%Qc).
  assert (F : forall i j, (i < j)%nat -> (f i < f j)%Qc).
  { intros i j H. unfold f, Qcdiv. apply Qcmult_lt_compat_r; [exact PI|]. apply qn_lt. lia. }
  assert (F0 : (e < f 0%nat)%Qc).
  { unfold f, Qcdiv. change (qn (0 + 1)) with 1%Qc. rewrite Qcmult_1_l. exact C. }
  assert (G : forall i, In i (seq 0 (n - 2)) -> (e < f i /\ f i < 1 - e)%Qc).
  { intros i I. apply in_seq in I. split; [destruct i as [|i]; [exact F0|]; apply (Qclt_trans _ (f 0%nat)); [exact F0|apply F; lia]|].
    assert (X : (f i <= 1 - / qn (n - 1))%Qc); [|qc_lra].
    assert (X : (f i <= f (n - 3)%nat)%Qc) by (destruct (Nat.eq_dec i (n - 3)) as [->|]; [apply Qcle_refl|apply Qclt_le_weak, F; lia]).
    assert (Z : (f (n - 3)%nat = 1 - / qn (n - 1))%Qc); [|rewrite Z in X; exact X].
    unfold f, Qcdiv. replace (n - 1)%nat with (S (n - 3 + 1)) at 2 by lia. 
    assert (W : (qn (n - 3 + 1) = qn (n - 1) - 1)%Qc) by (replace (n - 1)%nat with (S (n - 3 + 1)) by lia; rewrite qn_S; ring).
    replace (S (n - 3 + 1)) with (n - 1)%nat by lia. rewrite W. transitivity (qn (n - 1) * / qn (n - 1) - / qn (n - 1))%Qc; [ring|rewrite D; reflexivity]. }
  split; [rewrite !app_length, map_length, seq_length; cbn [length]; lia|]. split.
  - cbn [app]. constructor.
    + assert (SS : forall l, StronglySorted Qclt l -> (forall x, In x l -> x < 1 - e)%Qc -> StronglySorted Qclt (l ++ [(1 - e)%Qc])).
      { induction l as [|x l IH]; intros Hs Hb; [repeat constructor|]. inversion Hs; subst. cbn [app]. constructor; [apply IH; [assumption|intros y I; apply Hb; right; exact I]|].
        apply Forall_app. split; [assumption|]. repeat constructor. apply Hb. left. reflexivity. }
      apply SS; [apply StronglySorted_map_seq; exact F|]. intros x I. apply in_map_iff in I. destruct I as (i & <- & I). apply G. exact I.
    + apply Forall_app. split; [|repeat constructor; exact E1]. apply Forall_forall. intros x I. apply in_map_iff in I. destruct I as (i & <- & I). apply G. exact I.
  - intros t I. cbn [app In] in I. rewrite in_app_iff in I. destruct I as [<-|[I|[<-|[]]]].
    + split; [exact E0|reflexivity].
    + apply in_map_iff in I. destruct I as (i & <- & I). destruct (G i I). split; qc_lra.
    + split; reflexivity.
Qed.

Lemma C166_overlap_thresholds_pf :
  forall t, In t coco_iou_thresholds <-> exists k, (10 <= k <= 19)%nat /\ t = (qn k * Q2Qc (1 # 20))%Qc.
Proof.
  intros t. unfold coco_iou_thresholds. rewrite in_map_iff. split.
  - intros (i & <- & I). apply in_seq in I. exists (i + 10)%nat. split; [lia|]. unfold qn. rewrite Nat2Z.inj_add, qz_plus. rewrite Qcmult_plus_distr_l.
    replace (qz (Z.of_nat 10) * Q2Qc (1 # 20))%Qc with (Q2Qc (1 # 2)) by (apply Qc_is_canon; reflexivity). apply Qcplus_comm.
  - intros (k & L & ->). exists (k - 10)%nat. split; [|apply in_seq; lia]. unfold qn. replace (Z.of_nat (k - 10)) with (Z.of_nat k + (-10))%Z by lia. rewrite qz_plus, Qcmult_plus_distr_l.
    replace (qz (-10) * Q2Qc (1 # 20))%Qc with (- Q2Qc (1 # 2))%Qc by (apply Qc_is_canon; reflexivity). ring.
Qed.

Lemma C167_example_weights_refuted_pf :
  exists precisions, precisions true <> precisions false /\ coco_average_precision precisions true <> nanmean (precisions true) /\
    forall w, coco_average_precision precisions w = nanmean (precisions false).
Proof.
  exists (fun w : bool => if w then [Fin 1%Qc] else [Fin 0%Qc]). split; [discriminate|]. split; [vm_compute; discriminate|reflexivity].
Qed.

Definition with_class_weight (st : detection_settings) (w : option Qc) : detection_settings :=
  DetectionSettings (ds_class_id st) (ds_iou_threshold st) (ds_area_range st) (ds_max_num_detections st) w.

Definition same_pairs (a b : res (list (Qc * Qc * Qc))) : Prop :=
  match a, b with Ok x, Ok y => map fst x = map fst y | Err x, Err y => x = y | _, _ => False end.

Lemma map_fst_combine {A B} (l : list A) : forall m : list B, (length l <= length m)%nat -> map fst (combine l m) = l.
Proof. induction l as [|x l IH]; intros [|y m] H; try reflexivity; [cbn in H; lia|]. cbn [combine map fst]. f_equal. apply IH. cbn in H. lia. Qed.

Lemma pairs_without_weight st im :
  exists r, forall w, (forall x, w = Some x -> 0 <= x)%Qc ->
    pairs_of (with_class_weight st w) im =
    let! lp := r in Ok (combine (combine (fst lp) (snd lp)) (map (fun _ => given 1%Qc (im_weight im) * given 1%Qc w)%Qc (fst lp : list Qc))).
Proof.
  unfold pairs_of, detection_process. cbn [de_labels de_predictions de_weight columns_at_least Nat.leb negb].
  unfold boxes_to_label_prediction_example_weight. cbn [with_class_weight ds_class_id ds_iou_threshold ds_area_range ds_max_num_detections ds_class_weight Nat.eqb andb negb].
  destruct (match ds_max_num_detections st with Some k => Z.leb k 0 | None => false end); [exists (Err ValueError); reflexivity|].
  destruct (Z.ltb (ds_class_id st) 0); [exists (Err ValueError); reflexivity|].
  assert (W : forall w, (forall x, w = Some x -> 0 <= x)%Qc -> match w with Some w => Qc_ltb w 0%Qc | None => false end = false).
  { intros [w|] H; [apply Qc_ltb_ge; apply H; reflexivity|reflexivity]. }
  cbn zeta. destruct (filter_boxes_by_area_range _ _) as [gt|e]; cbn [bind]; [|exists (Err e); intros w H; rewrite (W w H); reflexivity].
  destruct (compute_ious_for_image _ _) as [ious|e]; cbn [bind]; [|exists (Err e); intros w H; rewrite (W w H); reflexivity].
  destruct (match_boxes _ _ _) as [[mg mp]|e]; cbn [bind]; [|exists (Err e); intros w H; rewrite (W w H); reflexivity].
  destruct (check_boxes_in_area_range _ _) as [tags|e]; cbn [bind]; [|exists (Err e); intros w H; rewrite (W w H); reflexivity].
  eexists (Ok (_, _)). intros w H. rewrite (W w H). cbn [bind fst snd]. reflexivity.
Qed.

Lemma pairs_with_class_weight st w w' im :
  (forall x, w = Some x -> 0 <= x)%Qc -> (forall x, w' = Some x -> 0 <= x)%Qc ->
  same_pairs (pairs_of (with_class_weight st w) im) (pairs_of (with_class_weight st w') im).
Proof.
  intros H H'. destruct (pairs_without_weight st im) as (r & R). rewrite (R w H), (R w' H'). destruct r as [[l p]|e]; cbn [bind fst snd same_pairs]; [|reflexivity].
  rewrite !map_fst_combine; [reflexivity| |]; rewrite map_length, combine_length; lia.
Qed.

Lemma C167_class_weights_ignored_pf :
  forall ap ths limit lk pk st images w w', 
    (forall x, w = Some x -> 0 <= x)%Qc -> (forall x, w' = Some x -> 0 <= x)%Qc ->
    (let! ps := mapM (pairs_of (with_class_weight st w)) images in
     outcome (confusion_combiner ap ths limit (histogram_options None false false true None) lk pk "" "") (Bundle (map detection_input (concat ps)))) =
    (let! ps := mapM (pairs_of (with_class_weight st w')) images in
     outcome (confusion_combiner ap ths limit (histogram_options None false false true None) lk pk "" "") (Bundle (map detection_input (concat ps)))).
Proof.
  intros ap ths limit lk pk st images w w' H H'.
  assert (M : same_pairs (let! ps := mapM (pairs_of (with_class_weight st w)) images in Ok (concat ps)) (let! ps := mapM (pairs_of (with_class_weight st w')) images in Ok (concat ps))).
  { induction images as [|im images IH]; [reflexivity|]. cbn [mapM]. pose proof (pairs_with_class_weight st w w' im H H') as P.
    destruct (pairs_of (with_class_weight st w) im) as [a|], (pairs_of (with_class_weight st w') im) as [b|]; cbn [bind] in *; try exact P; try contradiction.
    destruct (mapM (pairs_of (with_class_weight st w)) images) as [c|], (mapM (pairs_of (with_class_weight st w')) images) as [d|]; cbn [bind] in *; try exact IH; try contradiction.
    cbn [same_pairs concat] in *. rewrite !map_app. congruence. }
  destruct (mapM (pairs_of (with_class_weight st w)) images) as [c|], (mapM (pairs_of (with_class_weight st w')) images) as [d|]; cbn [bind same_pairs] in *; try congruence; try contradiction.
  revert M. generalize (concat c) (concat d). clear. intros x y E. unfold outcome. f_equal. cbn [run].
  enough (G : forall a, fold_left (c_add (confusion_combiner ap ths limit (histogram_options None false false true None) lk pk "" "")) (map detection_input x) a =
    fold_left (c_add (confusion_combiner ap ths limit (histogram_options None false false true None) lk pk "" "")) (map detection_input y) a) by apply G.
  revert y E. induction x as [|[[l p] u] x IH]; intros [|[[l' p'] u'] y] E a; try discriminate E; [reflexivity|]. cbn [map fst] in E. injection E as <- <- E.
  cbn [map fold_left]. rewrite <- (IH y E). f_equal.
Qed.

Lemma C167_class_weights_refuted_pf :
  exists cs ws (average : Qc -> Z -> Qc -> num), length ws = length cs /\
    coco_mean_average average (Some [Q2Qc (1#2)]) cs (Some ws) = coco_mean_average average (Some [Q2Qc (1#2)]) cs None /\
    coco_mean_average average (Some [Q2Qc (1#2)]) cs (Some ws) <>
      Fin (qsum (map (fun cw => match average (Q2Qc (1#2)) (fst cw) (snd cw) with Fin q => q * snd cw | _ => 0 end) (combine cs ws)) / qsum ws)%Qc.
Proof.
  exists [1; 2]%Z, [qz 3; qz 1], (fun _ c _ => Fin (if Z.eqb c 1 then 1%Qc else 0%Qc)). split; [reflexivity|]. split; [vm_compute; reflexivity|].
  vm_compute. intros E. injection E as E. discriminate E.
Qed.

Lemma C168_own_columns_refuted_pf :
  exists a b name1 name2 sep,
    ma_predictions_to_stack a <> ma_predictions_to_stack b /\ name1 <> name2 /\
    filter_and_separate_computations (detection_computations a 1 "[0.5]" name1 "" "" false ++ detection_computations b 1 "[0.5]" name2 "" "" false) = Ok sep /\
    map (fun c => cp_body (snd c)) (sp_base sep) = [CountPairs a] /\
    map (fun c => (map k_name (cp_keys (snd c)), cp_body (snd c))) (sp_derived sep) =
      [([k_name (detection_matrices_key a "[0.5]" "" "" false)], AsMatrices (detection_matrices_key a "[0.5]" "" "" false));
       ([name1], RatioOf (detection_matrices_key a "[0.5]" "" "" false)); ([name2], RatioOf (detection_matrices_key a "[0.5]" "" "" false))].
Proof.
  exists (MatchArguments "1" None None None None (Some ["b"]) (Some ["boxes_of_a"]) None false),
         (MatchArguments "1" None None None None (Some ["b"]) (Some ["boxes_of_b"]) None false), "recall_a", "recall_b".
  eexists. split; [discriminate|]. split; [discriminate|]. split; [vm_compute; reflexivity|]. split; vm_compute; reflexivity.
Qed.

Lemma append_cancel_l s : forall a b : string, (s ++ a)%string = (s ++ b)%string -> a = b.
Proof. induction s as [|c s IH]; intros a b E; [exact E|]. cbn in E. injection E as E. apply IH. exact E. Qed.

Lemma append_len (a b : string) : String.length (a ++ b)%string = (String.length a + String.length b)%nat.
Proof. induction a as [|c a IH]; [reflexivity|]. cbn. rewrite IH. reflexivity. Qed.

Lemma append_cancel_r t : forall a b : string, (a ++ t)%string = (b ++ t)%string -> a = b.
Proof.
  induction a as [|c a IH]; intros [|d b] E; try reflexivity.
  - exfalso. apply (f_equal String.length) in E. cbn in E. rewrite append_len in E. lia.
  - exfalso. apply (f_equal String.length) in E. cbn in E. rewrite append_len in E. lia.
  - cbn in E. injection E as -> E. f_equal. apply IH. exact E.
Qed.

Lemma append_assoc' (a b c : string) : ((a ++ b) ++ c)%string = (a ++ (b ++ c))%string.
Proof. induction a as [|x a IH]; [reflexivity|]. cbn. rewrite IH. reflexivity. Qed.

Lemma name_of_class ar cw it mx ls ps nk al ls' ps' nk' al' c c' :
  match_preprocessor_name (MatchArguments c it ar mx cw ls ps nk al) = match_preprocessor_name (MatchArguments c' it ar mx cw ls' ps' nk' al') -> c = c'.
Proof.
  unfold match_preprocessor_name, private_name. cbn [ma_class_id ma_iou_threshold ma_area_range ma_max_num_detections ma_class_weight]. intros E.
  apply append_cancel_l, append_cancel_l, append_cancel_l in E. revert E.
  set (rest := [("class_weight", cw); ("iou_threshold", it); ("max_num_detections", mx)]).
  assert (G : forall x, exists u, forall d, String.concat "," (x :: flat_map (fun kv => match snd kv with Some v => [(fst kv ++ "=" ++ v)%string] | None => [] end) rest) = (x ++ u)%string /\
    String.concat "," ((x ++ d)%string :: flat_map (fun kv => match snd kv with Some v => [(fst kv ++ "=" ++ v)%string] | None => [] end) rest) = ((x ++ d) ++ u)%string).
  { intros x. destruct (flat_map _ rest) as [|y l]; [exists ""; intros d; split; cbn [String.concat]; [|]; (induction (x ++ d)%string; [reflexivity|cbn; congruence]) || idtac|].
    - induction x as [|k x IH]; [reflexivity|cbn; rewrite <- IH; reflexivity].
    - exists ("," ++ String.concat "," (y :: l))%string. intros d. split; reflexivity. }
  destruct (G "class_id=") as (u & U). 
  destruct ar as [ar|]; cbn [flat_map snd fst app]; fold rest.
  - change (flat_map _ rest) with (flat_map (fun kv : string * option string => match snd kv with Some v => [(fst kv ++ "=" ++ v)%string] | None => [] end) rest).
    intros E. cbn [String.concat] in E. apply append_cancel_l, append_cancel_l in E.
    change ("class_id" ++ "=" ++ c)%string with ("class_id=" ++ c)%string in E. change ("class_id" ++ "=" ++ c')%string with ("class_id=" ++ c')%string in E.
    change (String.concat "," (("class_id=" ++ c)%string :: flat_map (fun kv : string * option string => match snd kv with Some v => [(fst kv ++ "=" ++ v)%string] | None => [] end) rest) =
            String.concat "," (("class_id=" ++ c')%string :: flat_map (fun kv : string * option string => match snd kv with Some v => [(fst kv ++ "=" ++ v)%string] | None => [] end) rest)) in E.
    rewrite (proj2 (U c)), (proj2 (U c')) in E. apply append_cancel_r, append_cancel_l in E. exact E.
  - intros E.
    change (String.concat "," (("class_id=" ++ c)%string :: flat_map (fun kv : string * option string => match snd kv with Some v => [(fst kv ++ "=" ++ v)%string] | None => [] end) rest) =
            String.concat "," (("class_id=" ++ c')%string :: flat_map (fun kv : string * option string => match snd kv with Some v => [(fst kv ++ "=" ++ v)%string] | None => [] end) rest)) in E.
    rewrite (proj2 (U c)), (proj2 (U c')) in E. apply append_cancel_r, append_cancel_l in E. exact E.
Qed.

Lemma separate_two {B} (cl p1 p2 : string) (k1 k2 m1 m2 : metric_key) (b1 d1 r1 b2 d2 r2 : B) :
  metric_key_eqb k2 k1 = false -> metric_key_eqb m2 m1 = false -> metric_key_eqb m1 k1 = false -> metric_key_eqb m2 k1 = false ->
  metric_key_eqb m2 k2 = false -> metric_key_eqb k2 m1 = false -> String.eqb p2 p1 = false ->
  exists sep,
    filter_and_separate_computations [Computation (Combine cl [p1]) [k1] b1; Computation Derive [k1] d1; Computation Derive [m1] r1;
                                      Computation (Combine cl [p2]) [k2] b2; Computation Derive [k2] d2; Computation Derive [m2] r2] = Ok sep /\
    map (fun c => cp_body (snd c)) (sp_base sep) = [b1; b2] /\ map (fun c => cp_body (snd c)) (sp_derived sep) = [d1; r1; d2; r2].
Proof.
  intros H1 H2 H3 H4 H5 H6 P. eexists. split; [|split].
  - unfold filter_and_separate_computations.
    assert (ST : forall (s : separated B) c l, foldM separate_step (c :: l) s = (let! s' := separate_step s c in foldM separate_step l s')) by reflexivity.
    assert (N : forall l x (c : computation B), existsb (fun ic => id_eqb x (fst ic)) l = false -> add_new l x c = l ++ [(x, c)]) by (intros l x c E; unfold add_new; rewrite E; reflexivity).
    do 6 (rewrite ST; unfold separate_step at 1, comp_id at 1, metric_computation_id, derived_computation_id; cbn [cp_kind cp_keys sorted bind sp_base sp_derived sp_cross sp_ci];
      rewrite N by (unfold id_eqb; cbn [existsb fst ci_class ci_keys ci_preprocessors list_eqb app]; rewrite ?H1, ?H2, ?H3, ?H4, ?H5, ?H6, ?P, ?andb_false_l, ?andb_false_r; reflexivity); cbn [app]).
    reflexivity.
  - reflexivity.
  - reflexivity.
Qed.

Lemma C168_classes_apart_partial_pf :
  forall a b i j n ts m o w,
    ma_class_id a <> ma_class_id b -> i <> j ->
    ma_iou_threshold a = ma_iou_threshold b -> ma_area_range a = ma_area_range b -> ma_max_num_detections a = ma_max_num_detections b -> ma_class_weight a = ma_class_weight b ->
    exists sep,
      filter_and_separate_computations (detection_computations a i ts n m o w ++ detection_computations b j ts n m o w) = Ok sep /\
      map (fun c => cp_body (snd c)) (sp_base sep) = [CountPairs a; CountPairs b] /\
      map (fun c => cp_body (snd c)) (sp_derived sep) =
        [AsMatrices (detection_matrices_key a ts m o w); RatioOf (detection_matrices_key a ts m o w);
         AsMatrices (detection_matrices_key b ts m o w); RatioOf (detection_matrices_key b ts m o w)].
Proof.
  intros [c it ar mx cw ls ps nk al] [c' it' ar' mx' cw' ls' ps' nk' al'] i j n ts m o w D I. cbn [ma_class_id ma_iou_threshold ma_area_range ma_max_num_detections ma_class_weight] in *.
  intros <- <- <- <-.
  set (a := MatchArguments c it ar mx cw ls ps nk al). set (b := MatchArguments c' it ar mx cw ls' ps' nk' al').
  assert (NE : match_preprocessor_name b <> match_preprocessor_name a) by (unfold a, b; intros E; apply name_of_class in E; congruence).
  assert (P : String.eqb (match_preprocessor_name b) (match_preprocessor_name a) = false) by (apply String.eqb_neq; exact NE).
  assert (KE : detection_matrices_key b ts m o w <> detection_matrices_key a ts m o w).
  { unfold detection_matrices_key. generalize dependent (match_preprocessor_name b). generalize (match_preprocessor_name a). intros x y NE _ E. injection E as E. apply NE.
    unfold private_name in E. cbn [flat_map snd fst app String.concat] in E. repeat (apply append_cancel_l in E || rewrite !append_assoc' in E; cbn [String.append] in E; try injection E as E).
    apply append_cancel_r in E. exact E. }
  assert (E1 : metric_key_eqb (detection_matrices_key b ts m o w) (detection_matrices_key a ts m o w) = false) by (apply mk_eqb_neq; exact KE).
  assert (E2 : metric_key_eqb (MetricKey n m o (Some (SubKey (Some j) None None)) None (Some w) false) (MetricKey n m o (Some (SubKey (Some i) None None)) None (Some w) false) = false).
  { apply mk_eqb_neq. intros E. injection E. intros; subst. congruence. }
  assert (E3 : forall k x, metric_key_eqb (MetricKey n m o (Some (SubKey (Some k) None None)) None (Some w) false) (detection_matrices_key x ts m o w) = false).
  { intros k x. apply mk_eqb_neq. unfold detection_matrices_key. intros E. discriminate E. }
  assert (E4 : forall k x, metric_key_eqb (detection_matrices_key x ts m o w) (MetricKey n m o (Some (SubKey (Some k) None None)) None (Some w) false) = false).
  { intros k x. apply mk_eqb_neq. unfold detection_matrices_key. intros E. discriminate E. }
  apply (separate_two _ _ _ _ _ _ _ _ _ _ _ _ _ E1 E2 (E3 i a) (E3 j a) (E3 j b) (E4 i b) P).
Qed.
