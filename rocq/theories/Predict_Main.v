(* Proofs of the theorems restated in Predict_Properties.v. *)
From Coq Require Import String Ascii Permutation.
From Verif Require Import Base BaseFacts Beam BeamFacts Util_Model Keys_Model Inputs_Model Ranking_Model Ranking_Main Keys_Main Keras_Main Classes_Main Config_Model Keras_Model Predict_Model.
Local Open Scope string_scope.
Local Open Scope list_scope.

(* C255 - C263: predictions of TFLite, TFJS and earlier models, and the metrics of Keras models. *)

(** A name of an input without the name of the signature and the number of the tensor. *)

Definition no_colon (s : string) : Prop := ~ In ":"%char (list_ascii_of_string s).

Lemma before_colon_no s : no_colon s -> before_colon s = s.
Proof.
  induction s as [|c s IH]; [reflexivity|]. unfold no_colon. cbn [before_colon list_ascii_of_string]. intros N. destruct (Ascii.eqb c ":") eqn:E.
  - apply Ascii.eqb_eq in E. subst c. destruct N. left. reflexivity.
  - f_equal. apply IH. intros I. apply N. right. exact I.
Qed.

Lemma before_colon_cut r t : no_colon r -> before_colon (r ++ ":" ++ t)%string = r.
Proof.
  induction r as [|c r IH]; [reflexivity|]. unfold no_colon. cbn [before_colon list_ascii_of_string append]. intros N. destruct (Ascii.eqb c ":") eqn:E.
  - apply Ascii.eqb_eq in E. subst c. destruct N. left. reflexivity.
  - f_equal. apply IH. intros I. apply N. right. exact I.
Qed.

Lemma strip_prefix_app p s : strip_prefix p (p ++ s)%string = Some s.
Proof. induction p as [|c p IH]; [reflexivity|]. cbn [append strip_prefix]. rewrite Ascii.eqb_refl. exact IH. Qed.

Lemma C255_names_pf :
  forall d r t, no_colon r ->
    (d_name d = ("serving_default_" ++ r)%string \/ d_name d = ("serving_default_" ++ r ++ ":" ++ t)%string ->  input_name d = r) /\
    ((forall x, r <> ("serving_default_" ++ x)%string) -> (forall x, r ++ ":" ++ t <> "serving_default_" ++ x)%string ->
     d_name d = r \/ d_name d = (r ++ ":" ++ t)%string -> input_name d = r).
Proof.
  intros d r t N. unfold input_name. split.
  - intros [->| ->]; rewrite strip_prefix_app; [apply before_colon_no|apply before_colon_cut]; exact N.
  - assert (S : forall p s, (forall x, s <> (p ++ x)%string) -> strip_prefix p s = None).
    { clear. intros p. induction p as [|c p IH]; intros s H; [destruct (H s eq_refl)|]. destruct s as [|b s]; [reflexivity|]. cbn [strip_prefix]. destruct (Ascii.eqb c b) eqn:E; [|reflexivity].
      apply Ascii.eqb_eq in E. subst b. apply IH. intros x ->. apply (H x). reflexivity. }
    intros N1 N2 [->| ->]; rewrite S by assumption; [apply before_colon_no|apply before_colon_cut]; exact N.
Qed.

(** What stands in place of a missing value. *)

Definition filler (t : dtype) (c : cell) : Prop := (t = Float32 /\ c = CNum (qz (-1))) \/ (t = Int64 /\ c = CInt (-1)%Z) \/ (t = Text /\ c = CText "").

(** The elements an example contributes to an input of a shape: its own, or the filler if it has none. *)

Definition contributes (d : detail) (v : option array) (cells : list cell) : Prop :=
  (exists a, v = Some a /\ ~ In CNone (a_data a) /\ length (a_data a) = size (tl (d_shape d)) /\ cells = a_data a) \/
  ((v = None \/ exists a, v = Some a /\ In CNone (a_data a)) /\ exists c, filler (d_dtype d) c /\ cells = repeat c (size (tl (d_shape d)))).

(** The values of a feature in a batch of n examples. *)

Definition in_batch (f : features) (name : string) (n : nat) (vs : list (option array)) : Prop :=
  match dget String.eqb f name with Some l => length l = n /\ vs = map Some l | None => vs = repeat None n end.

Lemma existsb_none l : existsb is_none l = true <-> In CNone l.
Proof. rewrite existsb_exists. split; [intros (c & I & E); destruct c; try discriminate; exact I|intros I; exists CNone; split; [exact I|reflexivity]]. Qed.

Lemma size_one t : size (1 :: t) = size t.
Proof. apply Nat.mul_1_l. Qed.

Lemma contributes_value d v cells : contributes d v cells -> example_value d v = Ok (Arr (1 :: tl (d_shape d)) cells).
Proof.
  assert (D : forall c, filler (d_dtype d) c -> default_value d = Ok (Arr (1 :: tl (d_shape d)) (repeat c (size (tl (d_shape d)))))).
  { intros c F. unfold default_value. rewrite size_one. destruct F as [[-> ->]|[[-> ->]|[-> ->]]]; reflexivity. }
  intros [(a & -> & N & L & ->)|[H (c & F & ->)]]; unfold example_value.
  - destruct (existsb is_none (a_data a)) eqn:E; [apply existsb_none in E; contradiction|]. unfold reshape. rewrite size_one, L, Nat.eqb_refl. reflexivity.
  - destruct H as [->|(a & -> & I)]; [apply D, F|]. apply existsb_none in I. rewrite I. apply D, F.
Qed.

Lemma shape_eqb_refl s : shape_eqb s s = true.
Proof. unfold shape_eqb. rewrite Nat.eqb_refl. induction s as [|x s IH]; [reflexivity|]. cbn [combine forallb fst snd]. rewrite Nat.eqb_refl. exact IH. Qed.

Lemma concatenate_rows tail css : css <> [] -> concatenate (map (fun cells => Arr (1 :: tail) cells) css) = Ok (Arr (length css :: tail) (concat css)).
Proof.
  intros N. unfold concatenate. destruct css as [|c css]; [destruct (N eq_refl)|]. remember (c :: css) as l eqn:El. cbn [map]. 
  assert (F : forallb (fun b => match a_shape b with _ :: t => shape_eqb t tail | [] => false end) (map (fun cells => Arr (1 :: tail) cells) l) = true).
  { apply forallb_forall. intros b I. apply in_map_iff in I. destruct I as (x & <- & _). apply shape_eqb_refl. }
  assert (S : fold_right Nat.add 0 (map (fun b => hd 0 (a_shape b)) (map (fun cells => Arr (1 :: tail) cells) l)) = length l).
  { clear. induction l as [|x l IH]; [reflexivity|]. cbn [map fold_right a_shape hd length]. rewrite IH. reflexivity. }
  assert (D : flat_map a_data (map (fun cells => Arr (1 :: tail) cells) l) = concat l).
  { clear. induction l as [|x l IH]; [reflexivity|]. cbn [map flat_map a_data concat]. rewrite IH. reflexivity. }
  subst l. cbn [map a_shape] in *. rewrite F, S, D. reflexivity.
Qed.

(** An input receives the values of all examples, in order. *)

Lemma input_value_cells f n d vs css : in_batch f (input_name d) n vs -> n <> 0 -> Forall2 (contributes d) vs css -> input_value f n d = Ok (Arr (n :: tl (d_shape d)) (concat css)).
Proof.
  intros B NZ F. unfold input_value, in_batch in *.
  assert (G : forall g : nat -> res array, (forall i v, nth_error vs i = Some v -> g i = example_value d v) -> length vs = n -> mapM g (seq 0 n) = Ok (map (fun cells => Arr (1 :: tl (d_shape d)) cells) css)).
  { intros g Hg L. clear B. subst n. assert (K : forall k, (forall i v, nth_error vs i = Some v -> g (k + i) = example_value d v) -> mapM g (seq k (length vs)) = Ok (map (fun cells => Arr (1 :: tl (d_shape d)) cells) css)).
    { clear Hg NZ. induction F as [|v c vs css A F IH]; intros k Hg; [reflexivity|]. cbn [length seq mapM map]. rewrite <- (Nat.add_0_r k) at 1. rewrite (Hg 0 v eq_refl), (contributes_value _ _ _ A). cbn [bind].
      rewrite IH; [reflexivity|]. intros i w E. specialize (Hg (S i) w E). rewrite <- Hg. f_equal. lia. }
    apply (K 0). exact Hg. }
  assert (LC : length vs = length css) by (clear - F; induction F; [reflexivity|cbn; congruence]).
  assert (LV : length vs = n). { destruct (dget String.eqb f (input_name d)) as [l|]; [destruct B as [<- ->]; apply map_length|subst vs; apply repeat_length]. }
  rewrite G; [| |exact LV].
  - cbn [bind]. rewrite concatenate_rows; [rewrite <- LC, LV; reflexivity|]. intros ->. cbn in LC. lia.
  - intros i v E. destruct (dget String.eqb f (input_name d)) as [l|].
    + destruct B as [_ ->]. rewrite nth_error_map in E. destruct (nth_error l i) as [a|]; [|discriminate]. injection E as <-. reflexivity.
    + subst vs. apply nth_error_In, repeat_spec in E. subst v. reflexivity.
Qed.

Definition receives (fit : dtype -> Z -> Z) (f : features) (n : nat) (d : detail) (t : nat * array) : Prop :=
  exists vs css, in_batch f (input_name d) n vs /\ Forall2 (contributes d) vs css /\ fst t = d_index d /\ quantize fit d (Arr (n :: tl (d_shape d)) (concat css)) = Ok (snd t).

Lemma C255_inputs_pf :
  forall fit inputs_of outputs_of invoke f name ts, NoDup (map input_name (inputs_of name)) -> batch_size f <> 0 ->
    Forall2 (receives fit f (batch_size f)) (inputs_of name) ts ->
    tflite_outputs fit inputs_of outputs_of invoke f name =
      (let! result := invoke name ts in
       foldM (fun acc d => let! a := dequantize d (result (d_index d)) in Ok (dset String.eqb acc (d_name d) a)) (outputs_of name) []).
Proof.
  intros fit inputs_of outputs_of invoke f name ts N NZ F. unfold tflite_outputs. remember (inputs_of name) as ds eqn:Ed. remember (batch_size f) as n eqn:En. clear Ed En.
  assert (G : exists g, gather f n ds = Ok g /\ forall d, In d ds -> exists a, dget String.eqb g (input_name d) = Some a /\ input_value f n d = Ok a).
  { unfold gather. set (step := fun acc d => _).
    cut (forall acc, (forall d, In d ds -> dget String.eqb acc (input_name d) = None) -> exists g, foldM step ds acc = Ok g /\
          (forall d, In d ds -> exists a, dget String.eqb g (input_name d) = Some a /\ input_value f n d = Ok a) /\
          (forall k, ~ In k (map input_name ds) -> dget String.eqb g k = dget String.eqb acc k)).
    { intros C. destruct (C []) as (g & E & H & _); [reflexivity|]. exists g. auto. }
    clear name. induction F as [|d t ds ts A F IH]; intros acc Ha; [exists acc; split; [reflexivity|split; [intros d []|reflexivity]]|].
    cbn [map] in N. inversion N as [|? ? N1 N2]; subst. destruct A as (vs & css & B & C & _ & _). assert (V := input_value_cells f n d vs css B NZ C).
    cbn [foldM]. unfold step at 1. unfold dmem. rewrite (Ha d (or_introl eq_refl)). cbn [andb]. rewrite V. cbn [bind].
    destruct (IH N2 (dset String.eqb acc (input_name d) (Arr (n :: tl (d_shape d)) (concat css)))) as (g & E & H & K).
    { intros d' I. rewrite (dget_dset_neq _ String.eqb_eq); [apply Ha; right; exact I|]. intros Q. apply N1. rewrite Q || rewrite <- Q. apply in_map. exact I. }
    exists g. split; [exact E|]. split.
    - intros d' [<-|I]; [|apply H, I]. eexists. split; [rewrite (K _ N1); apply (dget_dset_eq _ String.eqb_eq)|exact V].
    - intros k Nk. cbn [map] in Nk. rewrite K by (intros I; apply Nk; right; exact I). apply (dget_dset_neq _ String.eqb_eq). intros Q. apply Nk. left. congruence. }
  destruct G as (g & -> & H). cbn [bind].
  assert (M : mapM (fun d => match dget String.eqb g (input_name d) with Some a => let! a := quantize fit d a in Ok (d_index d, a) | None => Err KeyError end) ds = Ok ts).
  { clear N. induction F as [|d t ds ts A F IH]; [reflexivity|]. cbn [mapM]. destruct (H d (or_introl eq_refl)) as (a & E & V). rewrite E. destruct A as (vs & css & B & C & X & Q).
    rewrite (input_value_cells f n d vs css B NZ C) in V. injection V as <-. rewrite Q. cbn [bind]. rewrite IH by (intros d' I; apply H; right; exact I). cbn [bind]. destruct t as [i a]. cbn in X |- *. subst i. reflexivity. }
  rewrite M. reflexivity.
Qed.

Lemma C255_default_refuted_pf :
  exists d, d_dtype d = OtherInt /\ forall fit outputs_of invoke f name, batch_size f <> 0 -> dget String.eqb f (d_name d) = None ->
    tflite_outputs fit (fun _ => [d]) outputs_of invoke f name = Err ValueError.
Proof.
  exists (Detail "x" 0 [1; 1] OtherInt [] []). split; [reflexivity|]. intros fit outputs_of invoke f name NZ D. unfold tflite_outputs, gather. cbn [foldM dmem dget andb].
  unfold input_value. change (input_name (Detail "x" 0 [1; 1] OtherInt [] [])) with "x". cbn [d_name] in D. rewrite D. destruct (batch_size f) as [|n]; [destruct (NZ eq_refl)|]. reflexivity.
Qed.

Lemma C255_same_name_refuted_pf :
  exists d d', d_index d <> d_index d' /\ d_name d <> d_name d' /\ forall fit outputs_of invoke name, exists x,
    tflite_outputs fit (fun _ => [d; d']) outputs_of invoke [("x", [Arr [1] [CInt 3]])] name = Err x.
Proof.
  exists (Detail "serving_default_x:0" 0 [1; 1] Int64 [] []), (Detail "serving_default_x:1" 1 [1; 1] Int64 [] []). split; [discriminate|]. split; [discriminate|].
  intros. exists AttributeError. reflexivity.
Qed.

(** The numbers of an array. *)

Definition holds_numbers (a : array) (l : list Qc) : Prop := Forall2 (fun c q => c = CNum q \/ exists z, c = CInt z /\ q = qz z) (a_data a) l.

Lemma number_holds c q : (c = CNum q \/ exists z, c = CInt z /\ q = qz z) -> number c = Ok q.
Proof. intros [->|(z & -> & ->)]; reflexivity. Qed.

Lemma truncate_qz z : truncate (qz z) = z.
Proof. unfold truncate, qz. cbn [this Q2Qc]. rewrite (Qred_identity (inject_Z z)) by (cbn; apply Z.gcd_1_r). cbn. apply Z.quot_1_r. Qed.

Lemma C256_exact_pf :
  forall fit d s z ks a, d_scales d = [s] -> d_zeros d = [z] -> s <> 0%Qc -> d_dtype d = OtherInt \/ d_dtype d = Int64 -> (forall k, In k ks -> fit (d_dtype d) k = k) ->
    holds_numbers a (map (fun k => (qz k - qz z) * s)%Qc ks) ->
    quantize fit d a = Ok (Arr (a_shape a) (map CInt ks)) /\ dequantize d (Arr (a_shape a) (map CInt ks)) = Ok (Arr (a_shape a) (map (fun k => CNum ((qz k - qz z) * s)%Qc) ks)).
Proof.
  intros fit d s z ks a S Z NZ T F H. unfold quantize, dequantize. rewrite S, Z. split.
  - assert (M : mapM (fun c => let! x := number c in Ok (as_type fit (d_dtype d) (x / s + qz z)%Qc)) (a_data a) = Ok (map CInt ks)).
    { unfold holds_numbers in H. revert H. generalize (a_data a). induction ks as [|k ks IH]; intros l H; cbn [map] in H; inversion H as [|c q l0 l1 HA HB]; subst; [reflexivity|].
      cbn [mapM map]. rewrite (number_holds _ _ HA). cbn [bind]. rewrite IH; [|intros k' I; apply F; right; exact I|exact HB]. cbn [bind]. do 2 f_equal.
      replace ((qz k - qz z) * s / s + qz z)%Qc with (qz k) by (field; exact NZ). unfold as_type. destruct T as [-> | ->] in F |- *; rewrite truncate_qz, F by (left; reflexivity); reflexivity. }
    rewrite M. reflexivity.
  - cbn [a_data a_shape]. assert (M : mapM (fun c => let! x := number c in Ok (CNum ((x - qz z) * s)%Qc)) (map CInt ks) = Ok (map (fun k => CNum ((qz k - qz z) * s)%Qc) ks)).
    { clear. induction ks as [|k ks IH]; [reflexivity|]. cbn [map mapM number bind]. rewrite IH. reflexivity. }
    rewrite M. reflexivity.
Qed.

Lemma truncate_bounds q : ((qz (truncate q) - q < 1) /\ (q - qz (truncate q) < 1))%Qc.
Proof.
  unfold truncate, qz. destruct q as [[n d] c]. cbn [this Qnum Qden]. unfold Qclt, Qcminus, Qcplus, Qcopp. cbn [this Q2Qc]. rewrite !Qred_correct.
  assert (R := Z.quot_rem n (Zpos d) ltac:(lia)). set (k := Z.quot n (Zpos d)) in *.
  assert (B : (Z.abs (Z.rem n (Zpos d)) < Zpos d)%Z). { pose proof (Z.rem_bound_abs n (Zpos d) ltac:(lia)). lia. }
  split; unfold Qlt, Qplus, Qopp, inject_Z; cbn; lia.
Qed.

Lemma C256_error_pf :
  forall fit d s z x, d_scales d = [s] -> d_zeros d = [z] -> (0 < s)%Qc -> d_dtype d = OtherInt \/ d_dtype d = Int64 -> (forall k, fit (d_dtype d) k = k) ->
    exists y, (let! a := quantize fit d (Arr [1] [CNum x]) in dequantize d a) = Ok (Arr [1] [CNum y]) /\ (y - x < s)%Qc /\ (x - y < s)%Qc.
Proof.
  intros fit d s z x S Z P T F. unfold quantize, dequantize. rewrite S, Z. cbn [a_data a_shape mapM number bind].
  assert (E : as_type fit (d_dtype d) (x / s + qz z)%Qc = CInt (truncate (x / s + qz z)%Qc)) by (unfold as_type; destruct T as [-> | ->] in F |- *; rewrite F; reflexivity).
  rewrite E. cbn [number bind]. eexists. split; [reflexivity|]. destruct (truncate_bounds (x / s + qz z)%Qc) as [B1 B2]. set (k := qz (truncate (x / s + qz z)%Qc)) in *.
  assert (NZ : s <> 0%Qc) by (intros ->; apply (Qclt_not_le _ _ P), Qcle_refl).
  assert (X : ((k - qz z) * s - x = (k - (x / s + qz z)) * s)%Qc) by (field; exact NZ).
  assert (Y : (x - (k - qz z) * s = (x / s + qz z - k) * s)%Qc) by (field; exact NZ).
  rewrite X, Y. split.
  - eapply Qclt_le_trans; [apply Qcmult_lt_compat_r; [exact P|exact B1]|rewrite Qcmult_1_l; apply Qcle_refl].
  - eapply Qclt_le_trans; [apply Qcmult_lt_compat_r; [exact P|exact B2]|rewrite Qcmult_1_l; apply Qcle_refl].
Qed.

Lemma C256_nearest_refuted_pf :
  exists d s z x y k, d_scales d = [s] /\ d_zeros d = [z] /\ (0 < s)%Qc /\ d_dtype d = OtherInt /\
    (let! a := quantize (fun _ k => k) d (Arr [1] [CNum x]) in dequantize d a) = Ok (Arr [1] [CNum y]) /\ (y < (qz k - qz z) * s)%Qc /\ ((qz k - qz z) * s - x < x - y)%Qc.
Proof.
  exists (Detail "x" 0 [1; 1] OtherInt [1%Qc] [0%Z]), 1%Qc, 0%Z, (Q2Qc (3 # 4)), 0%Qc, 1%Z. repeat (split; [vm_compute; reflexivity|]). vm_compute. reflexivity.
Qed.

(** The outputs of a model are for a batch of n examples. *)

Definition for_batch (n : nat) (o : list (string * array)) : Prop := forall k a, In (k, a) o -> exists t, a_shape a = n :: t.

Lemma check_for_batch n o : for_batch n o -> check_outputs n o = Ok tt.
Proof.
  intros F. unfold check_outputs. assert (H : forallb (fun kv => match a_shape (snd kv) with m :: _ => Nat.eqb m n | [] => false end) o = true).
  { apply forallb_forall. intros [k a] I. destruct (F k a I) as [t E]. cbn [snd]. rewrite E. apply Nat.eqb_refl. }
  rewrite H. reflexivity.
Qed.

Lemma check_not_for_batch n o : check_outputs n o = Ok tt -> for_batch n o.
Proof.
  unfold check_outputs. destruct (forallb _ o) eqn:E; [|discriminate]. intros _ k a I. rewrite forallb_forall in E. specialize (E _ I). cbn [snd] in E.
  destruct (a_shape a) as [|m t]; [discriminate|]. apply Nat.eqb_eq in E. subst m. exists t. reflexivity.
Qed.

(** The value of outputs: the only one, or all by name. *)

Definition value_of (o : list (string * array)) (v : data array) : Prop :=
  (exists k a, o = [(k, a)] /\ v = Leaf a) \/ (length o <> 1 /\ v = Dict (map (fun kv => (fst kv, Leaf (snd kv))) o)).

Lemma outputs_value_of o v : value_of o v -> outputs_value o = v.
Proof. intros [(k & a & -> & ->)|[N ->]]; [reflexivity|]. destruct o as [|[k a] [|x o]]; [reflexivity|destruct (N eq_refl)|reflexivity]. Qed.

(** Extracts that differ only in the predictions. *)

Definition other_than_predictions (e e' : extracts) : Prop := forall k, k <> "predictions" -> dget String.eqb e' k = dget String.eqb e k.

(** What any of the extractors does with the outputs of one model. *)

Definition one_model (predict : list string -> list string -> extracts -> res (extracts * extracts)) (outputs : string -> res (list (string * array))) (n : nat) : Prop :=
  forall loaded spec e o v, In "" loaded -> outputs "" = Ok o -> for_batch n o -> value_of o v ->
    exists e', predict loaded [spec] e = Ok (e, e') /\ dget String.eqb e' "predictions" = Some v /\ other_than_predictions e e'.

(** And of several. *)

Definition several_models (predict : list string -> list string -> extracts -> res (extracts * extracts)) (outputs : string -> res (list (string * array))) (n : nat) : Prop :=
  forall loaded specs e vs, 2 <= length specs -> NoDup specs -> dget String.eqb e "predictions" = None ->
    Forall2 (fun s v => In s loaded /\ exists o, outputs s = Ok o /\ for_batch n o /\ value_of o v) specs vs ->
    exists e', predict loaded specs e = Ok (e, e') /\ dget String.eqb e' "predictions" = Some (Dict (combine specs vs)) /\ other_than_predictions e e'.

(** A model that was not loaded, or whose outputs are of another number of examples, is an error. *)

Definition refuses (predict : list string -> list string -> extracts -> res (extracts * extracts)) (outputs : string -> res (list (string * array))) (n : nat) : Prop :=
  forall loaded specs e r, predict loaded specs e = Ok r -> forall s, In s specs ->
    let name := if Nat.leb 2 (length specs) then s else "" in In name loaded /\ exists o, outputs name = Ok o /\ for_batch n o.

Lemma predict_one outputs n : one_model (fun loaded specs e => predict_models loaded outputs n specs e) outputs n.
Proof.
  intros loaded spec e o v I O F V. unfold predict_models. cbn [length Nat.ltb Nat.leb foldM]. assert (M : memb String.eqb "" loaded = true) by (apply (memb_In _ String.eqb_eq); exact I).
  rewrite M. cbn [negb]. rewrite O. cbn [bind]. rewrite (check_for_batch n o F). cbn [bind store negb]. rewrite (outputs_value_of o v V). cbn [bind].
  eexists. split; [reflexivity|]. split; [apply (dget_dset_eq _ String.eqb_eq)|]. intros k N. apply (dget_dset_neq _ String.eqb_eq). intros <-. apply N. reflexivity || exact N.
Qed.

Lemma combine_snoc {A B} (l : list A) (m : list B) x y : length l = length m -> combine (l ++ [x]) (m ++ [y]) = combine l m ++ [(x, y)].
Proof. revert m. induction l as [|a l IH]; intros [|b m] H; try discriminate; [reflexivity|]. cbn. rewrite IH by (injection H; auto). reflexivity. Qed.

Lemma dset_new {V} (d : list (string * V)) k v : ~ In k (dkeys d) -> dset String.eqb d k v = d ++ [(k, v)].
Proof.
  induction d as [|[k' v'] d IH]; intros N; [reflexivity|]. cbn [dset]. destruct (String.eqb k k') eqn:E; [apply String.eqb_eq in E; subst k'; destruct N; left; reflexivity|].
  rewrite IH; [reflexivity|]. intros I. apply N. right. exact I.
Qed.

Lemma dkeys_combine {V} (l : list string) (m : list V) : length l = length m -> dkeys (combine l m) = l.
Proof. revert m. induction l as [|a l IH]; intros [|b m] H; try discriminate; [reflexivity|]. cbn. f_equal. apply IH. injection H. auto. Qed.

Lemma predict_several outputs n : several_models (fun loaded specs e => predict_models loaded outputs n specs e) outputs n.
Proof.
  intros loaded specs e vs L N D F. unfold predict_models. replace (Nat.ltb 1 (length specs)) with true by (symmetry; apply Nat.ltb_lt; lia).
  set (step := fun gr spec => _).
  assert (S : forall done dvs todo tvs e', length done = length dvs -> NoDup (done ++ todo) -> done <> [] ->
      dget String.eqb e' "predictions" = Some (Dict (combine done dvs)) -> other_than_predictions e e' ->
      Forall2 (fun s v => In s loaded /\ exists o, outputs s = Ok o /\ for_batch n o /\ value_of o v) todo tvs ->
      exists e'', foldM step todo (e, e') = Ok (e, e'') /\ dget String.eqb e'' "predictions" = Some (Dict (combine (done ++ todo) (dvs ++ tvs))) /\ other_than_predictions e e'').
  { clear N F. intros done dvs todo tvs e' LD N ND P X F. revert done dvs e' LD N ND P X. induction F as [|s v todo tvs A F IH]; intros done dvs e' LD N ND P X.
    { rewrite !app_nil_r. exists e'. split; [reflexivity|split; assumption]. }
    destruct A as (I & o & O & FB & V). cbn [foldM]. unfold step at 1. apply (memb_In _ String.eqb_eq) in I. rewrite I. cbn [negb]. rewrite O. cbn [bind]. rewrite (check_for_batch n o FB). cbn [bind store negb].
    change PREDICTIONS_KEY with "predictions". rewrite P. unfold dmem. rewrite D. rewrite (outputs_value_of o v V). cbn [bind].
    assert (NI : ~ In s (dkeys (combine done dvs))). { rewrite dkeys_combine by exact LD. apply NoDup_remove_2 in N. intros I'. apply N. apply in_or_app. left. exact I'. }
    rewrite (dset_new _ _ _ NI).
    destruct (IH (done ++ [s]) (dvs ++ [v]) (dset String.eqb e' "predictions" (Dict (combine done dvs ++ [(s, v)])))) as (e'' & E & P' & X').
    - rewrite !app_length, LD. reflexivity.
    - rewrite <- app_assoc. exact N.
    - destruct done; discriminate.
    - rewrite (dget_dset_eq _ String.eqb_eq), combine_snoc by exact LD. reflexivity.
    - intros k K. rewrite (dget_dset_neq _ String.eqb_eq); [apply X, K|congruence].
    - exists e''. rewrite <- !app_assoc in P'. split; [exact E|split; assumption]. }
  inversion F as [|s v todo tvs A F' E1 E2]; subst; [cbn in L; lia|].
  destruct A as (I & o & O & FB & V). cbn [foldM]. unfold step at 1. apply (memb_In _ String.eqb_eq) in I. rewrite I. cbn [negb]. rewrite O. cbn [bind]. rewrite (check_for_batch n o FB). cbn [bind store negb].
  change PREDICTIONS_KEY with "predictions". rewrite D. rewrite (outputs_value_of o v V). cbn [bind].
  apply (S [s] [v] todo tvs); [reflexivity|exact N|discriminate| | |exact F'].
  - apply (dget_dset_eq _ String.eqb_eq).
  - intros k K. apply (dget_dset_neq _ String.eqb_eq). congruence.
Qed.

Lemma predict_refuses outputs n : refuses (fun loaded specs e => predict_models loaded outputs n specs e) outputs n.
Proof.
  intros loaded specs e r R s I name. subst name. unfold predict_models in R. change (Nat.ltb 1 (length specs)) with (Nat.leb 2 (length specs)) in R. set (b := Nat.leb 2 (length specs)) in *. clearbody b.
  revert R. generalize (e, e). induction specs as [|s' specs IH]; intros gr R; [destruct I|]. cbn [foldM] in R. revert R. set (nm := if b then s' else "") in *.
  destruct (memb String.eqb nm loaded) eqn:M; [|discriminate]. cbn [negb]. destruct (outputs nm) as [o|] eqn:O; [|discriminate]. cbn [bind]. destruct (check_outputs n o) as [[]|] eqn:C; [|discriminate]. cbn [bind].
  destruct (store b s' (outputs_value o) gr) as [gr'|]; [|discriminate]. cbn [bind]. intros R. destruct I as [<-|I].
  - split; [apply (memb_In _ String.eqb_eq); exact M|]. exists o. split; [exact O|apply check_not_for_batch; exact C].
  - eapply IH; eassumption.
Qed.

Lemma C257_one_pf :
  forall fit inputs_of outputs_of invoke f,
    one_model (fun loaded specs e => tflite_predict fit inputs_of outputs_of invoke loaded specs f e) (tflite_outputs fit inputs_of outputs_of invoke f) (batch_size f).
Proof. intros. apply predict_one. Qed.

Lemma C257_several_pf :
  forall fit inputs_of outputs_of invoke f,
    several_models (fun loaded specs e => tflite_predict fit inputs_of outputs_of invoke loaded specs f e) (tflite_outputs fit inputs_of outputs_of invoke f) (batch_size f).
Proof. intros. apply predict_several. Qed.

Lemma C257_refused_pf :
  forall fit inputs_of outputs_of invoke f,
    refuses (fun loaded specs e => tflite_predict fit inputs_of outputs_of invoke loaded specs f e) (tflite_outputs fit inputs_of outputs_of invoke f) (batch_size f).
Proof. intros. apply predict_refuses. Qed.

Lemma C257_outputs_pf :
  forall fit inputs_of outputs_of invoke f name o, tflite_outputs fit inputs_of outputs_of invoke f name = Ok o -> NoDup (map d_name (outputs_of name)) ->
    exists ts r, invoke name ts = Ok r /\ Forall2 (fun d kv => fst kv = d_name d /\ dequantize d (r (d_index d)) = Ok (snd kv)) (outputs_of name) o.
Proof.
  intros fit inputs_of outputs_of invoke f name o H N. unfold tflite_outputs in H. destruct (gather f (batch_size f) (inputs_of name)) as [g|]; [|discriminate]. cbn [bind] in H. revert H.
  destruct (mapM _ (inputs_of name)) as [ts|]; [|discriminate]. cbn [bind]. destruct (invoke name ts) as [r|] eqn:E; [|discriminate]. cbn [bind]. intros H. exists ts, r. split; [exact E|].
  revert H. generalize (outputs_of name), N. clear. intros l N. set (step := fun acc d => _).
  cut (forall acc, (forall d, In d l -> ~ In (d_name d) (dkeys acc)) -> foldM step l acc = Ok o -> exists t, o = acc ++ t /\ Forall2 (fun d kv => fst kv = d_name d /\ dequantize d (r (d_index d)) = Ok (snd kv)) l t).
  { intros C H. destruct (C [] ltac:(intros ? ? []) H) as (t & -> & F). exact F. }
  induction l as [|d l IH]; intros acc A H.
  - injection H as <-. exists []. rewrite app_nil_r. split; [reflexivity|constructor].
  - cbn [map] in N. inversion N as [|? ? N1 N2]; subst. cbn [foldM] in H. unfold step at 1 in H. revert H. destruct (dequantize d (r (d_index d))) as [a|] eqn:E; [|discriminate]. cbn [bind].
    rewrite dset_new by (apply A; left; reflexivity). intros H. edestruct (IH N2) as (t & -> & F); [|exact H|].
    { intros d' I. unfold dkeys. rewrite map_app, in_app_iff. intros [K|[K|[]]]; [apply (A d' (or_intror I)); exact K|]. cbn [fst map] in K. apply N1. rewrite K. apply in_map. exact I. }
    exists ((d_name d, a) :: t). rewrite <- app_assoc. split; [reflexivity|]. constructor; [split; [reflexivity|exact E]|exact F].
Qed.

Lemma C257_given_refuted_pf :
  exists fit inputs_of outputs_of invoke loaded specs f e e1 e2, tflite_predict fit inputs_of outputs_of invoke loaded specs f e = Ok (e1, e2) /\ e1 <> e.
Proof.
  exists (fun _ z => z), (fun _ => []), (fun _ => [Detail "y" 0 [1; 1] Float32 [] []]), (fun _ _ => Ok (fun _ => Arr [1; 1] [CNum (qz 7)])), ["a"; "b"], ["a"; "b"], [("x", [Arr [1] [CInt 3]])],
    [("predictions", Dict [])]. eexists. eexists. split; [vm_compute; reflexivity|discriminate].
Qed.

(** A feature in the batch, whose 64 bit integers fit in 32 bits. *)

Definition fits (c : cell) : Prop := match c with CInt z => (-2147483648 <= z < 2147483648)%Z | _ => True end.

Lemma fits_same c : fits c -> cell_to_int32 c = c.
Proof. destruct c as [z| | |]; try reflexivity. cbn. intros H. unfold to_int32. rewrite Z.mod_small by lia. f_equal. lia. Qed.

Lemma narrow_get (f : typed_features) name b l : NoDup (dkeys f) -> dget String.eqb f name = Some (b, l) -> (b = true -> forall a c, In a l -> In c (a_data a) -> fits c) -> dget String.eqb (narrow f) name = Some l.
Proof.
  intros N D H. unfold narrow. set (val := fun (kv : string * (bool * list array)) => if fst (snd kv) then map (fun a => Arr (a_shape a) (map cell_to_int32 (a_data a))) (snd (snd kv)) else snd (snd kv)).
  cut (forall acc, dget String.eqb (fold_left (fun d kv => dset String.eqb d (fst kv) (val kv)) f acc) name = match dget String.eqb f name with Some v => Some (val (name, v)) | None => dget String.eqb acc name end).
  { intros C. rewrite C, D. unfold val. cbn [fst snd]. destruct b; [|reflexivity]. f_equal. rewrite <- (map_id l) at 2. apply map_ext_in. intros [s cs] I. cbn [a_shape a_data]. f_equal.
    rewrite <- (map_id cs) at 2. apply map_ext_in. intros c Ic. apply fits_same. eapply H; [reflexivity|exact I|exact Ic]. }
  clear D H. induction f as [|[k v] f IH]; intros acc; [reflexivity|]. cbn [fold_left fst]. inversion N as [|? ? N1 N2]; subst. rewrite (IH N2). cbn [dget]. rewrite (String.eqb_sym name k) || idtac. destruct (String.eqb k name) eqn:E.
  - apply String.eqb_eq in E. subst k. destruct (dget String.eqb f name) as [w|] eqn:D; [destruct N1; apply (dget_In _ String.eqb_eq) in D; apply (in_map fst) in D; exact D|]. rewrite String.eqb_refl || idtac. apply (dget_dset_eq _ String.eqb_eq).
  - destruct (dget String.eqb f name); [reflexivity|]. apply (dget_dset_neq _ String.eqb_eq). intros ->. rewrite String.eqb_refl in E. discriminate.
Qed.

(** An input of dimensions [-1; t...] receives the elements of all examples, in order. *)

Lemma reshape_rows a t : (forall d, In d t -> 0 < d) -> length (a_data a) = size t -> reshape_unknown a ((-1)%Z :: map Z.of_nat t) = Ok (Arr (1 :: t) (a_data a)).
Proof.
  intros P L. unfold reshape_unknown. assert (F1 : filter (Z.eqb (-1)%Z) (map Z.of_nat t) = []).
  { clear. induction t as [|x t IH]; [reflexivity|]. cbn [map filter]. destruct (Z.eqb_spec (-1)%Z (Z.of_nat x)); [lia|exact IH]. }
  assert (F2 : filter (fun d => negb (Z.eqb (-1)%Z d)) (map Z.of_nat t) = map Z.of_nat t).
  { clear. induction t as [|x t IH]; [reflexivity|]. cbn [map filter]. destruct (Z.eqb_spec (-1)%Z (Z.of_nat x)); [lia|]. cbn [negb]. f_equal. exact IH. }
  assert (F3 : existsb (fun d => Z.ltb d (-1)%Z) (map Z.of_nat t) = false).
  { clear. induction t as [|x t IH]; [reflexivity|]. cbn [map existsb]. destruct (Z.ltb_spec (Z.of_nat x) (-1)%Z); [lia|exact IH]. }
  assert (K : fold_right Z.mul 1%Z (map Z.of_nat t) = Z.of_nat (size t)).
  { clear. unfold size. induction t as [|x t IH]; [reflexivity|]. cbn [map fold_right]. rewrite IH. lia. }
  assert (Q : 0 < size t). { clear L F1 F2 F3 K. unfold size. induction t as [|x t IH]; [cbn; lia|]. cbn [fold_right]. assert (0 < x) by (apply P; left; reflexivity). assert (0 < fold_right Nat.mul 1 t) by (apply IH; intros d I; apply P; right; exact I). nia. }
  assert (M : map (fun d => Z.to_nat (if Z.eqb d (-1) then Z.of_nat (size t) / Z.of_nat (size t) else d)%Z) (map Z.of_nat t) = t).
  { clear. generalize (size t). intros m. induction t as [|x t IH]; [reflexivity|]. cbn [map]. f_equal; [destruct (Z.eqb_spec (Z.of_nat x) (-1)%Z); [lia|apply Nat2Z.id]|exact IH]. }
  cbn [filter existsb]. change (Z.eqb (-1) (-1)) with true. change (Z.ltb (-1) (-1)) with false. cbn [negb orb length]. rewrite F1, F2, F3, K, L. cbn [length].
  replace (Z.ltb 0 (Z.of_nat (size t))) with true by (symmetry; apply Z.ltb_lt; lia). rewrite Z.mod_same by lia. cbn [andb map]. change (Z.eqb 0 0) with true. change (Z.eqb (-1) (-1)) with true. cbn [andb]. rewrite M. rewrite Z.div_same by lia. reflexivity.
Qed.

Definition js_receives (f : typed_features) (i : js_input) (x : js_entry) : Prop :=
  je_name x = j_name i /\ je_text x = j_text i /\
  exists r k t b l, (j_name i = r \/ j_name i = (r ++ ":" ++ k)%string) /\ no_colon r /\ j_dim i = (-1)%Z :: map Z.of_nat t /\ (forall d, In d t -> 0 < d) /\
    dget String.eqb f r = Some (b, l) /\ l <> [] /\ (forall a, In a l -> length (a_shape a) <= S (length t) /\ length (a_data a) = size t) /\
    (b = true -> forall a c, In a l -> In c (a_data a) -> fits c) /\
    je_value x = Arr (length l :: t) (flat_map a_data l).

Lemma C258_inputs_pf :
  forall js_inputs js_outputs binary f name xs, NoDup (dkeys f) -> Forall2 (js_receives f) (js_inputs name) xs ->
    js_run js_inputs js_outputs binary (narrow f) name =
      (let! out := binary name xs in
       foldM (fun acc no => let! a := reshape (Arr [] (snd (snd no))) (fst (snd no)) in Ok (dset String.eqb acc (fst no) a))
         (combine (map before_colon (js_outputs name)) out) []).
Proof.
  intros js_inputs js_outputs binary f name xs N F. unfold js_run.
  assert (M : mapM (fun i => let! a := js_input_value (narrow f) i in Ok (JsEntry (j_name i) (j_text i) a)) (js_inputs name) = Ok xs).
  { induction F as [|i x is xs A F IH]; [reflexivity|]. cbn [mapM]. destruct A as (A1 & A2 & r & k & t & b & l & J & NC & D & P & G & NE & S & T & V).
    assert (E : js_input_value (narrow f) i = Ok (je_value x)).
    { unfold js_input_value. replace (before_colon (j_name i)) with r by (destruct J as [-> | ->]; [symmetry; apply before_colon_no|symmetry; apply before_colon_cut]; exact NC).
      rewrite (narrow_get f r b l N G T). rewrite D.
      assert (Q : mapM (fun a => if Nat.ltb (length ((-1)%Z :: map Z.of_nat t)) (length (a_shape a)) then Err ValueError else reshape_unknown a ((-1)%Z :: map Z.of_nat t)) l = Ok (map (fun cells => Arr (1 :: t) cells) (map a_data l))).
      { clear - S P. induction l as [|a l IH]; [reflexivity|]. cbn [mapM map]. destruct (S a (or_introl eq_refl)) as [S1 S2]. cbn [length]. rewrite map_length.
        destruct (Nat.ltb_spec (Datatypes.S (length t)) (length (a_shape a))); [lia|]. rewrite (reshape_rows a t P S2). cbn [bind].
        cbn [length] in IH. rewrite map_length in IH. rewrite IH by (intros a' I; apply S; right; exact I). reflexivity. }
      rewrite Q. cbn [bind]. rewrite concatenate_rows by (destruct l; [destruct (NE eq_refl)|discriminate]). rewrite map_length, <- flat_map_concat_map, V. reflexivity. }
    rewrite E. cbn [bind]. rewrite IH. cbn [bind]. destruct x as [xn xt xv]. cbn in A1, A2 |- *. subst. reflexivity. }
  rewrite M. reflexivity.
Qed.

Lemma C258_refused_pf :
  forall js_inputs js_outputs binary f name o, js_run js_inputs js_outputs binary f name = Ok o ->
    forall i, In i (js_inputs name) -> exists l, dget String.eqb f (before_colon (j_name i)) = Some l /\ forall a, In a l -> length (a_shape a) <= length (j_dim i).
Proof.
  intros js_inputs js_outputs binary f name o H i I. unfold js_run in H. revert H. destruct (mapM _ (js_inputs name)) as [xs|] eqn:M; [|discriminate]. intros _.
  revert xs M I. generalize (js_inputs name). intros is. induction is as [|j is IH]; intros xs M I; [destruct I|]. cbn [mapM] in M. revert M. destruct (js_input_value f j) as [a|] eqn:E; [|discriminate]. cbn [bind].
  destruct (mapM _ is) as [ys|] eqn:M; [|discriminate]. intros _. destruct I as [<-|I]; [|eapply IH; [reflexivity|exact I]].
  unfold js_input_value in E. destruct (dget String.eqb f (before_colon (j_name j))) as [l|]; [|discriminate]. exists l. split; [reflexivity|]. revert E. clear.
  destruct (mapM _ l) as [rs|] eqn:M; [|discriminate]. intros _. revert rs M. induction l as [|x l IH]; intros rs M; [intros ? []|]. cbn [mapM] in M. revert M.
  destruct (Nat.ltb_spec (length (j_dim j)) (length (a_shape x))); [discriminate|]. destruct (reshape_unknown x (j_dim j)); [|discriminate]. cbn [bind]. destruct (mapM _ l) as [ys|] eqn:M; [|discriminate]. intros _ b [<-|I]; [assumption|]. eapply IH; [reflexivity|exact I].
Qed.

Lemma C258_int64_refuted_pf :
  exists js_inputs js_outputs f name z, dget String.eqb f "x" = Some (true, [Arr [1] [CInt z]]) /\ js_inputs name = [JsInput "x" [(-1)%Z; 1%Z] false] /\
    forall binary, js_run js_inputs js_outputs binary (narrow f) name =
      (let! out := binary name [JsEntry "x" false (Arr [1; 1] [CInt 0%Z])] in
       foldM (fun acc no => let! a := reshape (Arr [] (snd (snd no))) (fst (snd no)) in Ok (dset String.eqb acc (fst no) a)) (combine (map before_colon (js_outputs name)) out) []) /\ z <> 0%Z.
Proof.
  exists (fun _ => [JsInput "x" [(-1)%Z; 1%Z] false]), (fun _ => ["y"]), [("x", (true, [Arr [1] [CInt 4294967296%Z]]))], "m", 4294967296%Z. split; [reflexivity|]. split; [reflexivity|]. intros binary. split; [reflexivity|discriminate].
Qed.

Lemma C259_one_pf :
  forall js_inputs js_outputs binary f,
    one_model (fun loaded specs e => tfjs_predict js_inputs js_outputs binary loaded specs f e) (js_run js_inputs js_outputs binary (narrow f)) (batch_size (narrow f)).
Proof. intros. apply predict_one. Qed.

Lemma C259_several_pf :
  forall js_inputs js_outputs binary f,
    several_models (fun loaded specs e => tfjs_predict js_inputs js_outputs binary loaded specs f e) (js_run js_inputs js_outputs binary (narrow f)) (batch_size (narrow f)).
Proof. intros. apply predict_several. Qed.

Lemma C259_refused_pf :
  forall js_inputs js_outputs binary f,
    refuses (fun loaded specs e => tfjs_predict js_inputs js_outputs binary loaded specs f e) (js_run js_inputs js_outputs binary (narrow f)) (batch_size (narrow f)).
Proof. intros. apply predict_refuses. Qed.

Lemma C259_outputs_pf :
  forall js_inputs js_outputs binary f name names outs, (forall xs, binary name xs = Ok outs) -> Forall2 (fun n r => no_colon r /\ (n = r \/ exists k, n = (r ++ ":" ++ k)%string)) (js_outputs name) names ->
    NoDup names -> length outs = length names -> (forall s d, In (s, d) outs -> length d = size s) -> (exists xs, mapM (js_input_value f) (js_inputs name) = Ok xs) ->
    js_run js_inputs js_outputs binary f name = Ok (combine names (map (fun o => Arr (fst o) (snd o)) outs)).
Proof.
  intros js_inputs js_outputs binary f name names outs B NM N L S [vs M]. unfold js_run.
  assert (M' : exists xs, mapM (fun i => let! a := js_input_value f i in Ok (JsEntry (j_name i) (j_text i) a)) (js_inputs name) = Ok xs).
  { revert vs M. generalize (js_inputs name). intros l. induction l as [|i l IH]; intros vs M; [exists []; reflexivity|]. cbn [mapM] in M |- *. destruct (js_input_value f i) as [a|]; [|discriminate]. cbn [bind] in M |- *.
    destruct (mapM (js_input_value f) l) as [ws|]; [|discriminate]. destruct (IH ws eq_refl) as [xs ->]. cbn [bind]. eexists. reflexivity. }
  destruct M' as [xs ->]. cbn [bind]. rewrite B. cbn [bind].
  replace (map before_colon (js_outputs name)) with names.
  2: { clear - NM. induction NM as [|n r l l' [A [->|[k ->]]] F IH]; [reflexivity| |]; cbn [map]; rewrite <- IH; f_equal; symmetry; [apply before_colon_no|apply before_colon_cut]; exact A. }
  clear - N L S. set (step := fun acc no => _).
  cut (forall acc, (forall n, In n names -> ~ In n (dkeys acc)) -> foldM step (combine names outs) acc = Ok (acc ++ combine names (map (fun o => Arr (fst o) (snd o)) outs))).
  { intros C. apply (C []). intros n _ []. }
  revert outs L S. induction names as [|n names IH]; intros [|[s d] outs] L S acc A; try discriminate; [cbn; rewrite app_nil_r; reflexivity|].
  cbn [combine foldM map]. unfold step at 1. cbn [fst snd]. unfold reshape. cbn [a_data]. rewrite (S s d (or_introl eq_refl)), Nat.eqb_refl. cbn [bind]. rewrite dset_new by (apply A; left; reflexivity).
  inversion N as [|? ? N1 N2]; subst. rewrite IH; [rewrite <- app_assoc; reflexivity|exact N2|injection L; auto|intros s' d' I; apply S; right; exact I|].
  intros n' I. unfold dkeys. rewrite map_app, in_app_iff. intros [K|[K|[]]]; [apply (A n' (or_intror I)); exact K|]. cbn in K. subst n'. contradiction.
Qed.

Lemma C259_missing_refuted_pf :
  exists js_inputs js_outputs binary f name e e', js_outputs name = ["y"; "z"] /\
    tfjs_predict js_inputs js_outputs binary [name] ["m"] f e = Ok (e, e') /\ dget String.eqb e' "predictions" = Some (Leaf (Arr [1; 1] [CNum (qz 7)])).
Proof.
  exists (fun _ => []), (fun _ => ["y"; "z"]), (fun _ _ => Ok [([1; 1], [CNum (qz 7)])]), [("x", (false, [Arr [1] [CInt 1]]))], "", []. eexists. split; [reflexivity|]. split; [vm_compute; reflexivity|vm_compute; reflexivity].
Qed.

Section Legacy.
  Context {V : Type}.
  (** The weights a spec asks for in the features of an example. *)
  Definition spec_weights (one : V) (s : model_spec) (f : list (string * data V)) (w : data V) : Prop :=
    (m_weight_key s <> "" /\ dget String.eqb f (m_weight_key s) = Some w) \/
    (m_weight_key s = "" /\ m_weight_keys s <> [] /\ exists d, w = Dict d /\ Forall2 (fun kv kv' => fst kv' = fst kv /\ dget String.eqb f (snd kv) = Some (snd kv')) (m_weight_keys s) d) \/
    (m_weight_key s = "" /\ m_weight_keys s = [] /\ w = Leaf one).
  Lemma get_weights_spec one c name s f w : get_model_spec c name = Some s -> NoDup (dkeys (m_weight_keys s)) -> spec_weights one s f w ->
    get_example_weights one c name (Some (Dict f)) = Ok w.
  Proof.
    intros S N H. unfold get_example_weights. rewrite S. destruct H as [[K G]|[(K & M & d & -> & F)|(K & M & ->)]].
    - assert (E : set_str (m_weight_key s) = true) by (unfold set_str; apply negb_true_iff, String.eqb_neq, K). rewrite E, G. reflexivity.
    - rewrite K. cbn [set_str String.eqb negb]. assert (E : set_map (m_weight_keys s) = true) by (destruct (m_weight_keys s); [destruct (M eq_refl)|reflexivity]). rewrite E.
      revert N F. generalize (m_weight_keys s). clear. intros l N F. set (step := fun d kv => _).
      cut (forall acc, (forall k, In k (dkeys l) -> ~ In k (dkeys acc)) -> foldM step l acc = Ok (acc ++ d)).
      { intros C. change (set_str "") with false. cbv iota. rewrite (C []) by (intros k _ []). reflexivity. }
      induction F as [|kv kv' l d [A B] F IH]; intros acc H; [cbn; rewrite app_nil_r; reflexivity|]. cbn [foldM]. unfold step at 1. rewrite B. cbn [bind]. inversion N as [|? ? N1 N2]; subst.
      rewrite dset_new by (apply H; left; reflexivity). rewrite (IH N2); [rewrite <- app_assoc; destruct kv' as [k' v']; cbn in A |- *; subst; reflexivity|].
      intros k I. unfold dkeys. rewrite map_app, in_app_iff. intros [J|[J|[]]]; [apply (H k (or_intror I)); exact J|]. cbn in J. subst k. contradiction.
    - rewrite K, M. reflexivity.
  Qed.

  (** What a model fetched for the examples: one each, in order. *)
  Definition aligned (xs : list (@fetched V)) (elements : list (@example V)) : Prop := length xs = length elements /\ forall i x, nth_error xs i = Some x -> f_ref x = i /\ NoDup (dkeys (f_values x)).
  (** An example with the values of the first model under their keys, its weights and predictions. *)
  Definition updated (e : @example V) (x : @fetched V) (w p : data V) (r : @example V) : Prop :=
    dget String.eqb r "example_weights" = Some w /\ dget String.eqb r "predictions" = Some p /\
    forall k, k <> "example_weights" -> k <> "predictions" -> dget String.eqb r k = match dget String.eqb (f_values x) k with Some v => Some v | None => dget String.eqb e k end.

End Legacy.

Lemma set_all_get {V} (vals e : list (string * V)) k : NoDup (dkeys vals) ->
  dget String.eqb (fold_left (fun e kv => dset String.eqb e (fst kv) (snd kv)) vals e) k = match dget String.eqb vals k with Some v => Some v | None => dget String.eqb e k end.
Proof.
  revert e. induction vals as [|[k' v] vals IH]; intros e N; [reflexivity|]. cbn [fold_left fst snd]. inversion N as [|? ? N1 N2]; subst. rewrite (IH _ N2). cbn [dget].
  destruct (String.eqb k k') eqn:E.
  - apply String.eqb_eq in E. subst k'. destruct (dget String.eqb vals k) as [w|] eqn:D; [destruct N1; apply (dget_In _ String.eqb_eq) in D; apply (in_map fst) in D; exact D|].
    rewrite (dget_dset_eq _ String.eqb_eq). rewrite ?String.eqb_refl. reflexivity.
  - assert (NE : k' <> k) by (intros ->; rewrite String.eqb_refl in E; discriminate). rewrite (proj2 (String.eqb_neq k' k) NE) || idtac.
    destruct (dget String.eqb vals k); [reflexivity|]. apply (dget_dset_neq _ String.eqb_eq). congruence.
Qed.

Lemma fold_left_ext2 {A B} (f g : A -> B -> A) l a : (forall a b, f a b = g a b) -> fold_left f l a = fold_left g l a.
Proof. intros H. revert a. induction l as [|x l IH]; intros a; [reflexivity|]. cbn. rewrite H. apply IH. Qed.

(** A new example. *)

Lemma new_example_some {V} (one : V) fpl c several name s elements x e fx w p : nth_error elements (f_ref x) = Some e -> get_model_spec c name = Some s -> NoDup (dkeys (m_weight_keys s)) -> NoDup (dkeys (f_values x)) ->
  dget String.eqb (f_values x) "features" = Some (Dict fx) -> spec_weights one s fx w -> dget String.eqb (f_values x) "predictions" = Some p ->
  exists r, new_example one fpl (Some c) several name elements x = Ok r /\ updated e x w (if several then Dict [(name, p)] else p) r.
Proof.
  intros E S N NF F W P. unfold new_example. rewrite E.
  rewrite (fold_left_ext2 _ (fun (e : @example V) kv => dset String.eqb e (fst kv) (snd kv))) by (intros a [k v]; cbn [fst snd]; destruct (is_fpl k); reflexivity).
  set (e1 := fold_left _ (f_values x) e). assert (G : forall k, dget String.eqb e1 k = match dget String.eqb (f_values x) k with Some v => Some v | None => dget String.eqb e k end) by (intros k; apply set_all_get, NF).
  change FEATURES_KEY with "features". rewrite (G "features"), F. rewrite (get_weights_spec one c name s fx w S N W). cbn [bind].
  change WEIGHTS_KEY with "example_weights". change PREDICTIONS_KEY with "predictions".
  assert (P2 : dget String.eqb (dset String.eqb e1 "example_weights" w) "predictions" = Some p) by (rewrite (dget_dset_neq _ String.eqb_eq) by discriminate; rewrite G, P; reflexivity).
  destruct several; cbn [negb].
  - rewrite P2. eexists. split; [reflexivity|]. split; [rewrite (dget_dset_neq _ String.eqb_eq) by discriminate; apply (dget_dset_eq _ String.eqb_eq)|]. split; [apply (dget_dset_eq _ String.eqb_eq)|].
    intros k K1 K2. rewrite !(dget_dset_neq _ String.eqb_eq) by congruence. apply G.
  - eexists. split; [reflexivity|]. split; [apply (dget_dset_eq _ String.eqb_eq)|]. split; [exact P2|]. intros k K1 K2. rewrite (dget_dset_neq _ String.eqb_eq) by congruence. apply G.
Qed.

Section Loop.
  Context {V : Type} (one : V) (fpl : @fetched V -> data V) (c : option eval_config) (several : bool) (name : string) (elements : list (@example V)).
  Definition inner : nat * list (@example V) -> @fetched V -> res (nat * list (@example V)) := fun ir x =>
    let (i, result) := (ir : nat * list (@example V)) in
    let! result := if Nat.leb (length result) i then let! e := new_example one fpl c several name elements x in Ok (result ++ [e]) else update_nth i (add_prediction name x) result in
    Ok (S i, result).
  Lemma first_model xs es done : Forall2 (fun x e => new_example one fpl c several name elements x = Ok e) xs es -> foldM inner xs (length done, done) = Ok (length done + length es, done ++ es).
  Proof.
    intros F. revert done. induction F as [|x e xs es A F IH]; intros done; [cbn; rewrite app_nil_r, Nat.add_0_r; reflexivity|]. cbn [foldM]. unfold inner at 1. rewrite Nat.leb_refl, A. cbn [bind].
    specialize (IH (done ++ [e])). rewrite app_length in IH. cbn [length] in IH. rewrite Nat.add_1_r in IH. rewrite IH. rewrite <- app_assoc. cbn [app length]. do 2 f_equal. lia.
  Qed.
  Lemma update_nth_at {A} (f : A -> res A) l x t y : f x = Ok y -> update_nth (length l) f (l ++ x :: t) = Ok (l ++ y :: t).
  Proof. intros F. induction l as [|a l IH]; cbn [length update_nth app]; [rewrite F; reflexivity|rewrite IH; reflexivity]. Qed.
  Lemma later_model xs es es' done : length xs = length es -> Forall2 (fun xe e' => add_prediction name (fst xe) (snd xe) = Ok e') (combine xs es) es' ->
    foldM inner xs (length done, done ++ es) = Ok (length done + length es', done ++ es').
  Proof.
    revert es es' done. induction xs as [|x xs IH]; intros [|e es] es' done L F; try discriminate; cbn [combine] in F; inversion F as [|? e' ? es'' A F']; subst.
    - cbn. rewrite Nat.add_0_r. reflexivity.
    - cbn [foldM]. unfold inner at 1. rewrite app_length. cbn [length]. destruct (Nat.leb_spec (length done + S (length es)) (length done)); [lia|].
      cbn [fst snd] in A. rewrite (update_nth_at _ _ _ _ _ A). cbn [bind]. specialize (IH es es'' (done ++ [e']) ltac:(injection L; auto) F'). rewrite app_length in IH. cbn [length] in IH. rewrite Nat.add_1_r, <- !app_assoc in IH. cbn [app] in IH. rewrite IH. do 2 f_equal. lia.
  Qed.

End Loop.

Lemma predict_examples_eq {V} (one : V) fpl c models elements : predict_examples one fpl c models elements =
  foldM (fun result m => let! r := foldM (inner one fpl c (negb (Nat.eqb (length models) 1)) (fst m) elements) (snd m) (0, result) in Ok (snd r)) models [].
Proof. reflexivity. Qed.

(** What the first model must have fetched. *)

Definition fetches {V} (one : V) (s : model_spec) (xs : list (@fetched V)) : Prop :=
  forall x, In x xs -> exists fx w p, dget String.eqb (f_values x) "features" = Some (Dict fx) /\ spec_weights one s fx w /\ dget String.eqb (f_values x) "predictions" = Some p.

Lemma first_examples {V} (one : V) fpl c several name s elements xs : get_model_spec c name = Some s -> NoDup (dkeys (m_weight_keys s)) -> aligned xs elements -> fetches one s xs ->
  exists es, Forall2 (fun x e => new_example one fpl (Some c) several name elements x = Ok e) xs es /\
    forall i e x r fx w p, nth_error elements i = Some e -> nth_error xs i = Some x -> nth_error es i = Some r -> dget String.eqb (f_values x) "features" = Some (Dict fx) -> spec_weights one s fx w -> dget String.eqb (f_values x) "predictions" = Some p ->
      updated e x w (if several then Dict [(name, p)] else p) r.
Proof.
  intros S N [L A] F. assert (K : forall x, In x xs -> exists e, nth_error elements (f_ref x) = Some e).
  { intros x I. apply In_nth_error in I. destruct I as [i I]. destruct (A i x I) as [-> _]. destruct (nth_error elements i) as [e|] eqn:E; [exists e; reflexivity|]. apply nth_error_None in E. assert (i < length xs) by (apply nth_error_Some; rewrite I; discriminate). lia. }
  assert (X : exists es, Forall2 (fun x e => new_example one fpl (Some c) several name elements x = Ok e) xs es).
  { assert (NF : forall x, In x xs -> NoDup (dkeys (f_values x))) by (intros x I; apply In_nth_error in I; destruct I as [i I]; apply (A i x I)). clear A L.
    induction xs as [|x xs IH]; [exists []; constructor|]. destruct IH as [es G]; [intros y I; apply F; right; exact I|intros y I; apply K; right; exact I|intros y I; apply NF; right; exact I|].
    destruct (F x (or_introl eq_refl)) as (fx & w & p & F1 & F2 & F3). destruct (K x (or_introl eq_refl)) as [e E].
    destruct (new_example_some one fpl c several name s elements x e fx w p E S N (NF x (or_introl eq_refl)) F1 F2 F3) as (r & R & _). exists (r :: es). constructor; assumption. }
  destruct X as [es X]. exists es. split; [exact X|]. intros i e x r fx w p E Xi Ri F1 F2 F3. destruct (A i x Xi) as [R NF].
  assert (Q : new_example one fpl (Some c) several name elements x = Ok r).
  { clear - X Xi Ri. revert i Xi Ri. induction X as [|a b l m H X IH]; intros [|i] Xi Ri; try discriminate; cbn in Xi, Ri; [injection Xi as <-; injection Ri as <-; exact H|eapply IH; eassumption]. }
  rewrite <- R in E. destruct (new_example_some one fpl c several name s elements x e fx w p E S N NF F1 F2 F3) as (r' & R' & U). rewrite Q in R'. injection R' as <-. exact U.
Qed.

Lemma C260_one_pf :
  forall (V : Type) (one : V) fpl c name s elements xs, get_model_spec c name = Some s -> NoDup (dkeys (m_weight_keys s)) -> aligned xs elements -> fetches one s xs ->
    exists result, predict_examples one fpl (Some c) [(name, xs)] elements = Ok result /\ length result = length elements /\
      forall i e x r fx w p, nth_error elements i = Some e -> nth_error xs i = Some x -> nth_error result i = Some r ->
        dget String.eqb (f_values x) "features" = Some (Dict fx) -> spec_weights one s fx w -> dget String.eqb (f_values x) "predictions" = Some p -> updated e x w p r.
Proof.
  intros V one fpl c name s elements xs S N A F. destruct (first_examples one fpl c false name s elements xs S N A F) as (es & X & U). exists es.
  split; [|split; [|exact U]].
  - rewrite predict_examples_eq. cbn [length Nat.eqb negb foldM fst snd]. pose proof (first_model _ _ _ _ _ _ _ _ [] X) as FM; cbn [length app] in FM; rewrite FM; clear FM. reflexivity.
  - destruct A as [<- _]. clear - X. induction X; [reflexivity|cbn; congruence].
Qed.

Lemma C260_several_pf :
  forall (V : Type) (one : V) fpl c name s elements xs more, get_model_spec c name = Some s -> NoDup (dkeys (m_weight_keys s)) -> aligned xs elements -> fetches one s xs ->
    more <> [] -> NoDup (name :: map fst more) -> (forall n ys, In (n, ys) more -> aligned ys elements /\ forall y, In y ys -> dmem String.eqb (f_values y) "predictions" = true) ->
    exists result, predict_examples one fpl (Some c) ((name, xs) :: more) elements = Ok result /\ length result = length elements /\
      forall i e x r fx w, nth_error elements i = Some e -> nth_error xs i = Some x -> nth_error result i = Some r ->
        dget String.eqb (f_values x) "features" = Some (Dict fx) -> spec_weights one s fx w ->
        exists ps, updated e x w (Dict ps) r /\
          Forall2 (fun m np => fst np = fst m /\ exists y, nth_error (snd m) i = Some y /\ dget String.eqb (f_values y) "predictions" = Some (snd np)) ((name, xs) :: more) ps.
Proof.
  intros V one fpl c name s elements xs more S N A F NE ND M.
  destruct (first_examples one fpl c true name s elements xs S N A F) as (es & X & U).
  assert (LE : length es = length elements) by (destruct A as [<- _]; clear - X; induction X; [reflexivity|cbn; congruence]).
  set (good := fun (models : list (string * list (@fetched V))) (result : list (@example V)) => length result = length elements /\
      forall i e x r fx w, nth_error elements i = Some e -> nth_error xs i = Some x -> nth_error result i = Some r ->
        dget String.eqb (f_values x) "features" = Some (Dict fx) -> spec_weights one s fx w ->
        exists ps, updated e x w (Dict ps) r /\ Forall2 (fun m np => fst np = fst m /\ exists y, nth_error (snd m) i = Some y /\ dget String.eqb (f_values y) "predictions" = Some (snd np)) models ps).
  assert (G0 : good [(name, xs)] es).
  { split; [exact LE|]. intros i e x r fx w E Xi Ri F1 F2. destruct (F x (nth_error_In _ _ Xi)) as (_ & _ & p & _ & _ & P). exists [(name, p)]. split; [eapply U; eassumption|].
    constructor; [|constructor]. split; [reflexivity|]. exists x. split; [exact Xi|exact P]. }
  rewrite predict_examples_eq. assert (B : negb (Nat.eqb (length ((name, xs) :: more)) 1) = true) by (destruct more; [destruct (NE eq_refl)|reflexivity]). rewrite B. cbn [foldM fst snd].
  pose proof (first_model _ _ _ _ _ _ _ _ [] X) as FM; cbn [length app] in FM; rewrite FM; clear FM. cbn [bind app snd length].
  set (stepm := fun result m => _). change (exists result, foldM stepm more es = Ok result /\ good ((name, xs) :: more) result).
  cut (forall done result, done <> [] -> NoDup (map fst done ++ map fst more) -> good done result -> exists result', foldM stepm more result = Ok result' /\ good (done ++ more) result').
  { intros C. apply (C [(name, xs)] es); [discriminate|exact ND|exact G0]. }
  clear X U G0 ND LE es NE B. induction more as [|[n ys] more IH]; intros done result DN ND G; [rewrite app_nil_r; exists result; split; [reflexivity|exact G]|].
  destruct (M n ys (or_introl eq_refl)) as [[LY AY] PY]. destruct G as [LR G].
  assert (Q : exists es', Forall2 (fun xe e' => add_prediction n (fst xe) (snd xe) = Ok e') (combine ys result) es' /\ good (done ++ [(n, ys)]) es').
  { assert (T : forall i y r, nth_error ys i = Some y -> nth_error result i = Some r -> exists ps p, dget String.eqb (f_values y) "predictions" = Some p /\ dget String.eqb r "predictions" = Some (Dict ps) /\ ~ In n (dkeys ps)).
    { intros i y r Yi Ri. assert (I1 : i < length elements) by (rewrite <- LR; apply nth_error_Some; rewrite Ri; discriminate).
      destruct (nth_error elements i) as [e|] eqn:E; [|apply nth_error_None in E; lia]. destruct (nth_error xs i) as [x|] eqn:Xi; [|apply nth_error_None in Xi; destruct A; lia].
      destruct (F x (nth_error_In _ _ Xi)) as (fx & w & p & F1 & F2 & P). destruct (G i e x r fx w E Xi Ri F1 F2) as (ps & (_ & U & _) & FP).
      specialize (PY y (nth_error_In _ _ Yi)). unfold dmem in PY. destruct (dget String.eqb (f_values y) "predictions") as [q|]; [|discriminate]. exists ps, q. split; [reflexivity|]. split; [exact U|].
      assert (DK : dkeys ps = map fst done) by (clear - FP; induction FP as [|m np l ps [H _] FP IH]; [reflexivity|]; cbn; f_equal; [exact H|exact IH]). rewrite DK. cbn [map fst] in ND. apply NoDup_remove_2 in ND. intros I. apply ND. apply in_or_app. left. exact I. }
    assert (Z : exists es', Forall2 (fun xe e' => add_prediction n (fst xe) (snd xe) = Ok e') (combine ys result) es').
    { assert (LL : length ys = length result) by lia. clear - T LL. revert result T LL. induction ys as [|y ys IH]; intros [|r result] T LL; try discriminate; [exists []; constructor|].
      destruct (IH result) as [es' E]; [intros i; apply (T (S i))|injection LL; auto|]. destruct (T 0 y r eq_refl eq_refl) as (ps & p & P1 & P2 & _). cbn [combine]. eexists (_ :: es'). constructor; [|exact E]. cbn [fst snd]. unfold add_prediction.
      change PREDICTIONS_KEY with "predictions". rewrite P1, P2. reflexivity. }
    destruct Z as [es' Z]. exists es'. split; [exact Z|]. assert (LZ : length es' = length result).
    { assert (H : length es' = length (combine ys result)) by (clear - Z; induction Z; [reflexivity|cbn; congruence]). rewrite combine_length in H. lia. }
    split; [lia|]. intros i e x r' fx w E Xi Ri F1 F2.
    assert (I1 : i < length result) by (rewrite <- LZ; apply nth_error_Some; rewrite Ri; discriminate).
    destruct (nth_error result i) as [r|] eqn:Rr; [|apply nth_error_None in Rr; lia]. destruct (nth_error ys i) as [y|] eqn:Yi; [|apply nth_error_None in Yi; lia].
    destruct (G i e x r fx w E Xi Rr F1 F2) as (ps & (W & U & O) & FP). destruct (T i y r Yi Rr) as (ps' & p & P1 & P2 & NI). rewrite U in P2. injection P2 as <-.
    assert (AP : add_prediction n y r = Ok r').
    { clear - Z Yi Rr Ri. revert result es' i Z Yi Rr Ri. induction ys as [|y0 ys IH]; intros [|r0 result] es' [|i] Z Yi Rr Ri; try discriminate; cbn [combine] in Z; inversion Z as [|? e0 ? es0 H Z']; subst; cbn in Yi, Rr, Ri.
      - injection Yi as <-. injection Rr as <-. injection Ri as <-. exact H.
      - eapply IH; eassumption. }
    unfold add_prediction in AP. change PREDICTIONS_KEY with "predictions" in AP. rewrite P1, U in AP. rewrite (dset_new _ _ _ NI) in AP. injection AP as <-. exists (ps ++ [(n, p)]). split.
    - split; [rewrite (dget_dset_neq _ String.eqb_eq) by discriminate; exact W|]. split; [apply (dget_dset_eq _ String.eqb_eq)|]. intros k K1 K2. rewrite (dget_dset_neq _ String.eqb_eq) by congruence. apply O; assumption.
    - apply Forall2_app; [exact FP|]. constructor; [|constructor]. split; [reflexivity|]. exists y. split; [exact Yi|exact P1]. }
  destruct Q as (es' & Z & G'). cbn [foldM]. unfold stepm at 1. cbn [fst snd]. pose proof (later_model one fpl (Some c) true n elements ys result es' [] ltac:(lia) Z) as LM; cbn [length app] in LM; rewrite LM; clear LM. cbn [bind snd app].
  destruct (IH (fun n' ys' I => M n' ys' (or_intror I)) (done ++ [(n, ys)]) es') as (res & R1 & R2).
  - destruct done; discriminate.
  - rewrite map_app, <- app_assoc. exact ND.
  - exact G'.
  - exists res. rewrite <- app_assoc in R2. split; assumption.
Qed.

Lemma C260_no_config_pf :
  forall (V : Type) (one : V) fpl name x xs more elements, more <> [] -> f_ref x < length elements -> predict_examples one fpl None ((name, x :: xs) :: more) elements = Err ValueError.
Proof.
  intros V one fpl name x xs more elements NE L. rewrite predict_examples_eq. assert (B : negb (Nat.eqb (length ((name, x :: xs) :: more)) 1) = true) by (destruct more; [destruct (NE eq_refl)|reflexivity]). rewrite B.
  cbn [foldM fst snd]. unfold inner at 1. cbn [length Nat.leb]. unfold new_example. destruct (nth_error elements (f_ref x)) as [e|] eqn:E; [|apply nth_error_None in E; lia]. reflexivity.
Qed.

Lemma C260_weights_refused_pf :
  forall (V : Type) (one : V) fpl c name s elements x xs more e fx, get_model_spec c name = Some s -> nth_error elements (f_ref x) = Some e -> NoDup (dkeys (f_values x)) -> dget String.eqb (f_values x) "features" = Some (Dict fx) ->
    m_weight_key s <> "" -> ~ In (m_weight_key s) (dkeys fx) -> predict_examples one fpl (Some c) ((name, x :: xs) :: more) elements = Err ValueError.
Proof.
  intros V one fpl c name s elements x xs more e fx S E N F K NI. rewrite predict_examples_eq. cbn [foldM fst snd]. unfold inner at 1. cbn [length Nat.leb]. unfold new_example. rewrite E.
  rewrite (fold_left_ext2 _ (fun (e : @example V) kv => dset String.eqb e (fst kv) (snd kv))) by (intros a [k v]; cbn [fst snd]; destruct (is_fpl k); reflexivity).
  set (e1 := fold_left _ (f_values x) e). assert (G : dget String.eqb e1 "features" = Some (Dict fx)) by (unfold e1; etransitivity; [apply set_all_get, N|rewrite F; reflexivity]).
  change FEATURES_KEY with "features". rewrite G. unfold get_example_weights. rewrite S.
  assert (Q : set_str (m_weight_key s) = true) by (unfold set_str; apply negb_true_iff, String.eqb_neq, K). rewrite Q. rewrite (proj2 (dget_None _ String.eqb_eq _ _) NI). reflexivity.
Qed.

Definition legacy_config : eval_config := EvalConfig [ModelSpec "a" "" [] "" [] "wa" [] false ""; ModelSpec "b" "" [] "" [] "wb" [] false ""] [] false UnknownMethod "".

Lemma C260_weights_refuted_pf :
  exists c elements models result e, get_model_spec c "b" <> None /\ (forall s, get_model_spec c "b" = Some s -> m_weight_key s = "wb") /\ predict_examples 0%Z (fun _ => Leaf 0%Z) (Some c) models elements = Ok result /\ nth_error result 0 = Some e /\
    dget String.eqb e "features" = Some (Dict [("wa", Leaf 3%Z); ("wb", Leaf 5%Z)]) /\ dget String.eqb e "example_weights" = Some (Leaf 3%Z).
Proof.
  exists legacy_config, [[("input", Leaf 9%Z)]], (map (fun n => (n, [Fetched 0 [("features", Dict [("wa", Leaf 3%Z); ("wb", Leaf 5%Z)]); ("predictions", Leaf 1%Z)]])) ["a"; "b"]). eexists. eexists.
  split; [discriminate|]. split; [intros s H; injection H as <-; reflexivity|]. split; [vm_compute; reflexivity|]. split; [reflexivity|]. split; reflexivity.
Qed.

Lemma C260_position_refuted_pf :
  exists c elements xs ys result e y, predict_examples 0%Z (fun _ => Leaf 0%Z) (Some c) [("a", xs); ("b", ys)] elements = Ok result /\ In y ys /\ f_ref y = 1 /\ (forall y', In y' ys -> f_ref y' <> 0) /\
    nth_error result 0 = Some e /\ dget String.eqb e "input" = Some (Leaf 9%Z) /\ nth_error elements 0 = Some [("input", Leaf 9%Z)] /\
    exists p, dget String.eqb (f_values y) "predictions" = Some p /\ dget String.eqb e "predictions" = Some (Dict [("a", Leaf 1%Z); ("b", p)]).
Proof.
  pose (f := Dict [("wa", Leaf 3%Z); ("wb", Leaf 5%Z)]).
  exists legacy_config, [[("input", Leaf 9%Z)]; [("input", Leaf 8%Z)]], [Fetched 0 [("features", f); ("predictions", Leaf 1%Z)]; Fetched 1 [("features", f); ("predictions", Leaf 2%Z)]], [Fetched 1 [("features", f); ("predictions", Leaf 7%Z)]]. eexists. eexists. eexists.
  split; [vm_compute; reflexivity|]. split; [left; reflexivity|]. split; [reflexivity|]. split; [intros y' [<-|[]]; discriminate|]. split; [reflexivity|]. split; [reflexivity|]. split; [reflexivity|]. exists (Leaf 7%Z). split; reflexivity.
Qed.

Lemma wrap_get {V} (l : list (@example V)) k : (forall e, In e l -> NoDup (dkeys e)) ->
  match dget String.eqb (wrap_batched l) k with Some vs => vs | None => [] end = flat_map (fun e => match dget String.eqb e k with Some v => [v] | None => [] end) l /\
  (dget String.eqb (wrap_batched l) k = None -> forall e, In e l -> dget String.eqb e k = None).
Proof.
  intros N. unfold wrap_batched. set (one := fun (d : list (string * list (data V))) (kv : string * data V) => dset String.eqb d (fst kv) (match dget String.eqb d (fst kv) with Some vs => vs | None => [] end ++ [snd kv])).
  set (at_k := fun d : list (string * list (data V)) => match dget String.eqb d k with Some vs => vs | None => [] end).
  assert (O : forall e d, NoDup (dkeys e) -> at_k (fold_left one e d) = at_k d ++ match dget String.eqb e k with Some v => [v] | None => [] end /\ (dget String.eqb (fold_left one e d) k = None -> dget String.eqb d k = None /\ dget String.eqb e k = None)).
  { induction e as [|[k' v] e IH]; intros d ND; [cbn; rewrite app_nil_r; auto|]. cbn [fold_left]. inversion ND as [|? ? N1 N2]; subst. destruct (IH (one d (k', v)) N2) as [IH1 IH2]. rewrite IH1. cbn [dget].
    destruct (String.eqb k k') eqn:E.
    - apply String.eqb_eq in E. subst k'. assert (D : dget String.eqb e k = None) by (apply (dget_None _ String.eqb_eq); exact N1). rewrite D, app_nil_r. rewrite ?String.eqb_refl. unfold at_k at 1, one at 1. cbn [fst snd]. rewrite (dget_dset_eq _ String.eqb_eq). split; [reflexivity|].
      intros H. destruct (IH2 H) as [H1 _]. unfold one in H1. cbn [fst] in H1. rewrite (dget_dset_eq _ String.eqb_eq) in H1. discriminate.
    - assert (NE : k' <> k) by (intros ->; rewrite String.eqb_refl in E; discriminate). unfold at_k at 1, one at 1. cbn [fst snd]. rewrite (dget_dset_neq _ String.eqb_eq) by congruence. split; [reflexivity|].
      intros H. destruct (IH2 H) as [H1 H2]. unfold one in H1. cbn [fst] in H1. rewrite (dget_dset_neq _ String.eqb_eq) in H1 by congruence. auto. }
  cut (forall d, at_k (fold_left (fun d e => fold_left one e d) l d) = at_k d ++ flat_map (fun e => match dget String.eqb e k with Some v => [v] | None => [] end) l /\
     (dget String.eqb (fold_left (fun d e => fold_left one e d) l d) k = None -> dget String.eqb d k = None /\ forall e, In e l -> dget String.eqb e k = None)).
  { intros C. destruct (C []) as [C1 C2]. split; [exact C1|]. intros H. apply (C2 H). }
  induction l as [|e l IH]; intros d; [cbn; rewrite app_nil_r; split; [reflexivity|intros H; split; [exact H|intros e []]]|]. cbn [fold_left flat_map].
  destruct (IH ltac:(intros e' I; apply N; right; exact I) (fold_left one e d)) as [H1 H2]. destruct (O e d (N e (or_introl eq_refl))) as [O1 O2]. rewrite H1, O1, <- app_assoc. split; [reflexivity|].
  intros H. destruct (H2 H) as [H3 H4]. destruct (O2 H3) as [H5 H6]. split; [exact H5|]. intros e' [<-|I]; [exact H6|apply H4, I].
Qed.

Lemma C261_wrapped_pf :
  forall (V : Type) (l : list (@example V)) k, (forall e, In e l -> NoDup (dkeys e)) ->
    (In k (dkeys (wrap_batched l)) <-> exists e, In e l /\ In k (dkeys e)) /\
    ((forall e, In e l -> In k (dkeys e)) -> l <> [] -> exists vs, dget String.eqb (wrap_batched l) k = Some vs /\ Forall2 (fun e v => dget String.eqb e k = Some v) l vs).
Proof.
  intros V l k N. destruct (wrap_get l k N) as [W1 W2]. split.
  - split.
    + intros I. destruct (dget String.eqb (wrap_batched l) k) as [vs|] eqn:D; [|apply (dget_None _ String.eqb_eq) in D; contradiction].
      assert (NV : vs <> []).
      { intros ->. clear W1 W2 I. unfold wrap_batched in D. revert D. set (one := fun (d : list (string * list (data V))) (kv : string * data V) => dset String.eqb d (fst kv) (match dget String.eqb d (fst kv) with Some vs => vs | None => [] end ++ [snd kv])).
        assert (O : forall e d, dget String.eqb d k <> Some [] -> dget String.eqb (fold_left one e d) k <> Some []).
        { induction e as [|[k' v] e IH]; intros d H; [exact H|]. cbn [fold_left]. apply IH. unfold one. cbn [fst snd]. destruct (String.eqb k' k) eqn:E.
          - apply String.eqb_eq in E. subst k'. rewrite (dget_dset_eq _ String.eqb_eq). intros Q. injection Q as Q. destruct (match dget String.eqb d k with Some vs => vs | None => [] end); discriminate.
          - rewrite (dget_dset_neq _ String.eqb_eq); [exact H|]. intros ->. rewrite String.eqb_refl in E. discriminate. }
        cut (forall d, dget String.eqb d k <> Some [] -> dget String.eqb (fold_left (fun d e => fold_left one e d) l d) k <> Some []).
        { intros C. apply (C []). discriminate. }
        clear N. induction l as [|e l IH]; intros d H; [exact H|]. cbn [fold_left]. apply IH, O, H. }
      destruct vs as [|v vs]; [destruct (NV eq_refl)|]. assert (Iv : In v (flat_map (fun e => match dget String.eqb e k with Some v => [v] | None => [] end) l)) by (rewrite <- W1; left; reflexivity).
      apply in_flat_map in Iv. destruct Iv as (e & Ie & Iv). exists e. split; [exact Ie|]. destruct (dget String.eqb e k) as [u|] eqn:D2; [|destruct Iv]. apply (dget_In _ String.eqb_eq) in D2. apply (in_map fst) in D2. exact D2.
    + intros (e & Ie & Ik). destruct (dget String.eqb (wrap_batched l) k) as [vs|] eqn:D; [apply (dget_In _ String.eqb_eq) in D; apply (in_map fst) in D; exact D|].
      specialize (W2 eq_refl e Ie). apply (dget_None _ String.eqb_eq) in W2. contradiction.
  - intros H NE. destruct (dget String.eqb (wrap_batched l) k) as [vs|] eqn:D.
    + exists vs. split; [reflexivity|]. subst vs. clear - H. induction l as [|e l IH]; [constructor|]. cbn [flat_map]. specialize (H e (or_introl eq_refl)) as He. destruct (dget String.eqb e k) as [v|] eqn:De; [|apply (dget_None _ String.eqb_eq) in De; contradiction].
      cbn [app]. constructor; [exact De|]. apply IH. intros e' I. apply H. right. exact I.
    + destruct l as [|e l]; [destruct (NE eq_refl)|]. specialize (W2 eq_refl e (or_introl eq_refl)). apply (dget_None _ String.eqb_eq) in W2. destruct (W2 (H e (or_introl eq_refl))).
Qed.

Lemma C261_positions_refuted_pf :
  exists (l : list (@example Z)) k vs i e v, dget String.eqb (wrap_batched l) k = Some vs /\ nth_error l i = Some e /\ nth_error vs i = Some v /\ dget String.eqb e k <> Some v.
Proof.
  exists [[("input", Leaf 1%Z)]; [("input", Leaf 2%Z); ("x", Leaf 3%Z)]], "x", [Leaf 3%Z], 0, [("input", Leaf 1%Z)], (Leaf 3%Z).
  split; [vm_compute; reflexivity|]. split; [reflexivity|]. split; [reflexivity|discriminate].
Qed.

Lemma C261_batch_pf :
  forall (V : Type) (one : V) fpl c name s raw others xs, get_model_spec c name = Some s -> NoDup (dkeys (m_weight_keys s)) -> raw <> [] -> aligned xs (map (fun v : V => [("input", Leaf v)] : @example V) raw) -> fetches one s xs ->
    exists b, legacy_batch one fpl c (fun _ => [(name, xs)]) (Some raw) others = Ok b /\
      dget String.eqb b "predictions" = Some (map (fun x => match dget String.eqb (f_values x) "predictions" with Some p => p | None => Leaf one end) xs) /\
      ((forall x, In x xs -> ~ In "input" (dkeys (f_values x))) -> dget String.eqb b "input" = Some (map Leaf raw)).
Proof.
  intros V one fpl c name s raw others xs S N NE A F. set (es := map (fun v : V => [("input", Leaf v)] : @example V) raw) in *.
  destruct (C260_one_pf V one fpl c name s es xs S N A F) as (result & E & L & U).
  assert (LB : legacy_batch one fpl c (fun _ => [(name, xs)]) (Some raw) others = let! rs := predict_examples one fpl (Some c) [(name, xs)] es in Ok (wrap_batched rs)) by reflexivity. rewrite LB, E. cbn [bind].
  eexists. split; [reflexivity|].
  assert (ND : forall e, In e result -> NoDup (dkeys e)).
  { intros e I. clear U. rewrite predict_examples_eq in E. cbn [length Nat.eqb negb foldM fst snd] in E. destruct (first_examples one fpl c false name s es xs S N A F) as (es' & X & _).
    pose proof (first_model _ _ _ _ _ _ _ _ [] X) as FM; cbn [length app] in FM; rewrite FM in E; clear FM. cbn [bind snd app] in E. injection E as <-. apply In_nth_error in I. destruct I as [i I].
    assert (Q : exists x, In x xs /\ new_example one fpl (Some c) false name es x = Ok e).
    { clear - X I. revert i I. induction X as [|a b l m H X IH]; intros [|i] I; try discriminate; cbn in I; [injection I as <-; exists a; split; [left; reflexivity|exact H]|]. destruct (IH i I) as (x & Ix & Hx). exists x. split; [right; exact Ix|exact Hx]. }
    destruct Q as (x & Ix & Q). unfold new_example in Q. revert Q. destruct (nth_error _ (f_ref x)) as [e0|] eqn:E0; [|discriminate]. intros Q.
    assert (N0 : NoDup (dkeys e0)). { apply nth_error_In in E0. apply in_map_iff in E0. destruct E0 as (v & <- & _). constructor; [intros []|constructor]. }
    assert (N1 : forall vals e, NoDup (dkeys e) -> NoDup (dkeys (fold_left (fun (e : @example V) kv => if is_fpl (fst kv) then dset String.eqb e (fst kv) (snd kv) else dset String.eqb e (fst kv) (snd kv)) vals e))).
    { induction vals as [|kv vals IH]; intros e' H; [exact H|]. cbn [fold_left]. apply IH. destruct (is_fpl (fst kv)); apply (dset_NoDup _ String.eqb_eq), H. }
    specialize (N1 (f_values x) e0 N0). revert Q. destruct (get_example_weights one c name _) as [w|]; [|discriminate]. cbn [bind negb]. intros Q. injection Q as <-. apply (dset_NoDup _ String.eqb_eq), N1. }
  assert (LX : length xs = length result) by (destruct A; lia).
  assert (GET : forall k (g : @fetched V -> nat -> data V), (forall i e x r, nth_error es i = Some e -> nth_error xs i = Some x -> nth_error result i = Some r -> dget String.eqb r k = Some (g x i)) -> dget String.eqb (wrap_batched result) k = Some (map (fun xi => g (fst xi) (snd xi)) (combine xs (seq 0 (length xs))))).
  { intros k g H. destruct (C261_wrapped_pf V result k ND) as [_ W].
    assert (P : forall i r, nth_error result i = Some r -> exists x, nth_error xs i = Some x /\ dget String.eqb r k = Some (g x i)).
    { intros i r R. assert (i < length result) by (apply nth_error_Some; rewrite R; discriminate). destruct (nth_error xs i) as [x|] eqn:Xi; [|apply nth_error_None in Xi; lia]. destruct (nth_error es i) as [e|] eqn:Ei; [|apply nth_error_None in Ei; destruct A; lia]. exists x. split; [reflexivity|]. eapply H; eassumption. }
    destruct W as (vs & W & FV).
    - intros e I. apply In_nth_error in I. destruct I as [i I]. destruct (P i e I) as (x & _ & D). apply (dget_In _ String.eqb_eq) in D. apply (in_map fst) in D. exact D.
    - intros ->. destruct raw; [destruct (NE eq_refl)|discriminate L].
    - rewrite W. f_equal. clear - P FV LX. assert (G : forall k0, (forall i r, nth_error result i = Some r -> exists x, nth_error xs i = Some x /\ dget String.eqb r k = Some (g x (k0 + i))) -> vs = map (fun xi => g (fst xi) (snd xi)) (combine xs (seq k0 (length xs)))).
      { clear P. revert xs LX. induction FV as [|e v result vs H FV IH]; intros [|x xs] LX k0 P; try discriminate; [reflexivity|]. cbn [length seq combine map fst snd]. destruct (P 0 e eq_refl) as (x' & Hx & D). injection Hx as <-. rewrite H in D. injection D as ->. rewrite Nat.add_0_r. f_equal.
        apply IH; [injection LX; auto|]. intros i r R. destruct (P (S i) r R) as (x' & Hx & D). exists x'. split; [exact Hx|]. rewrite D. do 2 f_equal. lia. }
      apply G. exact P. }
  split.
  - rewrite (GET "predictions" (fun x _ => match dget String.eqb (f_values x) "predictions" with Some p => p | None => Leaf one end)).
    + f_equal. generalize 0. clear. induction xs as [|x xs IH]; intros n; [reflexivity|]. cbn [length seq combine map fst]. f_equal. apply IH.
    + intros i e x r Ei Xi Ri. destruct (F x (nth_error_In _ _ Xi)) as (fx & w & p & F1 & F2 & F3). destruct (U i e x r fx w p Ei Xi Ri F1 F2 F3) as (_ & P & _). rewrite F3. exact P.
  - intros NI. rewrite (GET "input" (fun _ i => match nth_error raw i with Some v => Leaf v | None => Leaf one end)).
    + f_equal. assert (LR : length xs = length raw) by (destruct A as [A _]; unfold es in A; rewrite map_length in A; exact A). clear - LR.
      assert (G : forall (pre raw : list V), length xs = length raw -> map (fun xi : @fetched V * nat => match nth_error (pre ++ raw) (snd xi) with Some v => Leaf v | None => Leaf one end) (combine xs (seq (length pre) (length xs))) = map Leaf raw).
      { clear. induction xs as [|x xs IH]; intros pre [|v raw] H; try discriminate; [reflexivity|]. cbn [length seq combine map snd]. rewrite nth_error_app2, Nat.sub_diag by lia. cbn [nth_error]. f_equal.
        specialize (IH (pre ++ [v]) raw ltac:(injection H; auto)). rewrite app_length, <- app_assoc in IH. cbn [length app] in IH. rewrite Nat.add_1_r in IH. exact IH. }
      apply (G [] raw LR).
    + intros i e x r Ei Xi Ri. destruct (F x (nth_error_In _ _ Xi)) as (fx & w & p & F1 & F2 & F3). destruct (U i e x r fx w p Ei Xi Ri F1 F2 F3) as (_ & _ & O). rewrite O by discriminate.
      rewrite (proj2 (dget_None _ String.eqb_eq _ _) (NI x (nth_error_In _ _ Xi))). unfold es in Ei. rewrite nth_error_map in Ei. destruct (nth_error raw i) as [v|]; [|discriminate]. injection Ei as <-. reflexivity.
Qed.

Lemma C261_others_refuted_pf :
  exists c raw others k predict b, In k (dkeys others) /\ legacy_batch 0%Z (fun _ => Leaf 0%Z) c predict (Some raw) others = Ok b /\ ~ In k (dkeys b).
Proof.
  exists legacy_config, [9%Z], [("slice_keys", Leaf 1%Z)], "slice_keys", (fun _ => [("a", [Fetched 0 [("features", Dict [("wa", Leaf 3%Z)]); ("predictions", Leaf 1%Z)]])]). eexists. split; [left; reflexivity|]. split; [vm_compute; reflexivity|].
  cbn. intros H. repeat (destruct H as [H|H]; [discriminate|]). exact H.
Qed.

Lemma strip_prefix_some p s r : strip_prefix p s = Some r -> s = (p ++ r)%string.
Proof.
  revert s. induction p as [|c p IH]; intros s H; [injection H as ->; reflexivity|]. destruct s as [|b s]; [discriminate|]. cbn [strip_prefix] in H. destruct (Ascii.eqb c b) eqn:E; [|discriminate].
  apply Ascii.eqb_eq in E. subst b. cbn [append]. f_equal. apply IH, H.
Qed.

Lemma strip_prefix_none p s : (forall r, s <> (p ++ r)%string) -> strip_prefix p s = None.
Proof. intros H. destruct (strip_prefix p s) as [r|] eqn:E; [|reflexivity]. apply strip_prefix_some in E. destruct (H r E). Qed.

Lemma append_assoc a b c : ((a ++ b) ++ c = a ++ (b ++ c))%string.
Proof. induction a as [|x a IH]; [reflexivity|]. cbn [append]. rewrite IH. reflexivity. Qed.

Lemma append_length a b : String.length (a ++ b)%string = String.length a + String.length b.
Proof. induction a as [|x a IH]; [reflexivity|]. cbn [append String.length]. rewrite IH. reflexivity. Qed.

(** A metric of the output o: its name begins with that of the output. *)

Definition named_for (o : string) (m : k_metric) (name : string) : Prop := km_label m = (o ++ "_" ++ name)%string.

(** The class or the number of classes that a metric is for. *)

Definition sub_key_for (m : k_metric) (k : option sub_key) : Prop :=
  (exists i, km_class_id m = Some i /\ k = Some (SubKey (Some i) None None)) \/
  (km_class_id m = None /\ exists n, km_top_k m = Some n /\ k = Some (SubKey None None (Some n))) \/
  (km_class_id m = None /\ km_top_k m = None /\ k = None).

Lemma C262_keys_pf :
  forall model outputs ms keys, keras_keys ms model outputs = keys ->
    length keys = length ms /\
    forall i m k, nth_error ms i = Some m -> nth_error keys i = Some k ->
      sub_key_for m (k_sub k) /\ k_model k = model /\
      ((forall o name, In o outputs -> ~ named_for o m name) -> k_name k = km_label m /\ k_output k = "") /\
      (forall o name, In o outputs -> named_for o m name -> (forall o' name', In o' outputs -> named_for o' m name' -> o' = o) -> (forall r, name <> (o ++ "_" ++ r)%string) ->
         k_name k = name /\ k_output k = o).
Proof.
  intros model outputs ms keys <-. unfold keras_keys. split; [apply map_length|]. intros i m k M K. rewrite nth_error_map, M in K. injection K as <-. unfold keras_key.
  set (starts := fun o => _). split; [|split; [|split]].
  - assert (S : sub_key_for m (k_sub_key m)) by (unfold sub_key_for, k_sub_key; destruct (km_class_id m) as [c|]; [left; exists c; auto|right]; destruct (km_top_k m) as [n|]; [left; split; [reflexivity|exists n; auto]|right; auto]).
    destruct (find starts outputs); exact S.
  - destruct (find starts outputs); reflexivity.
  - intros H. destruct (find starts outputs) as [o|] eqn:F; [|split; reflexivity]. apply find_some in F. destruct F as [I F]. unfold starts in F. destruct (strip_prefix (o ++ "_") (km_label m)) as [r|] eqn:P; [|discriminate].
    apply strip_prefix_some in P. destruct (H o r I). unfold named_for. rewrite P. apply append_assoc.
  - intros o name I N U R. assert (F : find starts outputs = Some o).
    { destruct (find starts outputs) as [o'|] eqn:F.
      - apply find_some in F. destruct F as [I' F]. unfold starts in F. destruct (strip_prefix (o' ++ "_") (km_label m)) as [r|] eqn:P; [|discriminate]. apply strip_prefix_some in P. f_equal. apply (U o' r I'). unfold named_for. rewrite P. apply append_assoc.
      - exfalso. apply (find_none _ _ F) in I. unfold starts in I. rewrite N, <- append_assoc, strip_prefix_app in I. discriminate. }
    rewrite F. cbn [k_name k_output]. split; [|reflexivity]. rewrite N, <- append_assoc, append_length. rewrite append_length. cbn [String.length]. rewrite Nat.add_1_r. cbn [Nat.add strip_all]. rewrite strip_prefix_app.
    destruct (String.length o + String.length name) as [|n]; [reflexivity|]. cbn [strip_all]. rewrite strip_prefix_none; [reflexivity|]. intros r. rewrite append_assoc. apply R.
Qed.

Lemma C262_other_output_refuted_pf :
  exists outputs o name m model, In o outputs /\ named_for o m name /\ k_output (keras_key model outputs m) <> o /\ k_output (keras_key model outputs m) <> "".
Proof. exists ["a"; "a_b"], "a_b", "auc", (KMetric "a_b_auc" None None), "". split; [right; left; reflexivity|]. split; [reflexivity|]. split; discriminate. Qed.

Lemma C262_name_refuted_pf :
  exists outputs o name m m' model, outputs = [o] /\ named_for o m name /\ km_label m <> km_label m' /\ k_name (keras_key model outputs m) <> name /\ keras_key model outputs m = keras_key model outputs m'.
Proof. exists ["a"], "a", "a_x", (KMetric "a_a_x" None None), (KMetric "a_x" None None), "". split; [reflexivity|]. split; [reflexivity|]. split; [discriminate|]. split; [discriminate|reflexivity]. Qed.

Lemma C263_choice_pf :
  forall model m, let keys l := keras_keys l model (match ks_output_names m with Some o => o | None => [] end) in
    (ks_metrics m = [] -> keras_computations model m = []) /\
    (ks_metrics m <> [] -> forall a b, ks_compiled_metrics m = Some a -> ks_compiled_loss m = Some b -> length a + length b = length (ks_metrics m) -> keras_computations model m = [CompiledMetrics (keys (a ++ b))]) /\
    (ks_metrics m <> [] -> (forall a b, ks_compiled_metrics m = Some a -> ks_compiled_loss m = Some b -> length a + length b <> length (ks_metrics m)) -> keras_computations model m = [Evaluate (keys (ks_metrics m)) (ks_inputs m)]).
Proof.
  intros model [ms cm cl outs ins] keys. unfold keras_computations, keys. cbn [ks_metrics ks_compiled_metrics ks_compiled_loss ks_output_names ks_inputs]. split; [intros ->; reflexivity|]. split.
  - intros N a b -> -> L. destruct ms as [|x ms]; [destruct (N eq_refl)|]. rewrite L, Nat.eqb_refl. reflexivity.
  - intros N H. destruct ms as [|x ms]; [destruct (N eq_refl)|]. destruct cm as [a|]; [|reflexivity]. destruct cl as [b|]; [|reflexivity]. destruct (Nat.eqb_spec (length a + length b) (length (x :: ms))) as [E|E]; [destruct (H a b eq_refl eq_refl E)|reflexivity].
Qed.

(** There is a place for the weights of every metric. *)

Definition enough_slots (keys : list metric_key) : Prop := (exists k, In k keys /\ k_output k = "") \/ (forall k k', In k keys -> In k' keys -> k_output k = k_output k').

Lemma insert_empty l : exists t, insert String.leb "" l = "" :: t.
Proof. destruct l as [|x l]; cbn [insert]; [eexists; reflexivity|]. replace (String.leb "" x) with true by (destruct x; reflexivity). eexists. reflexivity. Qed.

Lemma sorted_empty_first l : In "" l -> exists t, py_sorted String.leb l = "" :: t.
Proof.
  induction l as [|a l IH]; intros I; [destruct I|]. unfold py_sorted. cbn [fold_right]. destruct I as [->|I]; [apply insert_empty|]. destruct (IH I) as [t E]. unfold py_sorted in E. rewrite E.
  destruct a as [|c a]; [apply insert_empty|]. cbn [insert]. change (String.leb (String c a) "") with false. eexists. reflexivity.
Qed.

Lemma enough_slots_count keys : enough_slots keys -> k_slots keys = length keys.
Proof.
  intros H. unfold k_slots, k_outputs. destruct H as [(k & I & E)|H].
  - destruct (sorted_empty_first (dedup String.eqb (map k_output keys))) as [t ->]; [|reflexivity]. apply (dedup_In _ String.eqb_eq). rewrite <- E. apply in_map. exact I.
  - destruct keys as [|k keys]; [reflexivity|]. assert (D : dedup String.eqb (map k_output (k :: keys)) = [k_output k]).
    { assert (A : forall x, In x (dedup String.eqb (map k_output (k :: keys))) -> x = k_output k).
      { intros x I. apply (proj1 (dedup_In _ String.eqb_eq _ _)) in I. apply in_map_iff in I. destruct I as (k' & <- & I). apply H; [exact I|left; reflexivity]. }
      assert (B : In (k_output k) (dedup String.eqb (map k_output (k :: keys)))) by (apply (dedup_In _ String.eqb_eq); left; reflexivity).
      assert (N : NoDup (dedup String.eqb (map k_output (k :: keys)))) by apply (dedup_NoDup _ String.eqb_eq).
      destruct (dedup String.eqb (map k_output (k :: keys))) as [|x [|y l]]; [destruct B|f_equal; apply A; left; reflexivity|]. exfalso.
      inversion N as [|? ? N1 _]; subst. apply N1. left. rewrite (A x (or_introl eq_refl)). apply A. right. left. reflexivity. }
    rewrite D. change (py_sorted String.leb [k_output k]) with [k_output k]. cbv iota.
    assert (G : forall l', (forall k', In k' l' -> k_output k' = k_output k) -> filter (fun k' => String.eqb (k_output k') (k_output k)) l' = l').
    { induction l' as [|y l' IH]; intros Q; [reflexivity|]. cbn [filter]. rewrite (Q y (or_introl eq_refl)), String.eqb_refl. f_equal. apply IH. intros k' I. apply Q. right. exact I. }
    specialize (G (k :: keys) (fun k' I => H k' k I (or_introl eq_refl))). revert G. generalize (k_output k). intros o G. destruct o; [reflexivity|]. rewrite G. reflexivity.
Qed.

Section Schedule.
  Context {E R : Type} (row_of : E -> res R) (keys : list metric_key) (update : list R -> res (list (list Qc))) (zero : list (list Qc)) (value : nat -> list Qc -> num) (flush : list R -> bool).
  (** Weights that are sums of what each example contributes. *)
  Definition sums (n : nat) (part : R -> list Qc) (rows : list R) : list Qc := map (fun j => qsum (map (fun r => nth j (part r) 0%Qc) rows)) (seq 0 n).
  Variables (good : R -> Prop) (width : nat -> nat) (part : nat -> R -> list Qc).
  Hypothesis add : forall l, l <> [] -> Forall good l -> update l = Ok (map (fun i => sums (width i) (part i) l) (seq 0 (length keys))).
  Hypothesis slots : k_slots keys = length keys.
  Let C := k_combiner row_of keys update zero value flush.

  Lemma sums_app n p a b : sums n p (a ++ b) = vadd (sums n p a) (sums n p b).
  Proof. unfold sums, vadd. generalize (seq 0 n). induction l as [|j l IH]; [reflexivity|]. cbn [map combine fst snd]. rewrite map_app, qsum_app, IH. reflexivity. Qed.
  Lemma sums_perm n p a b : Permutation a b -> sums n p a = sums n p b.
  Proof. intros P. unfold sums. apply map_ext. intros j. apply qsum_perm, Permutation_map, P. Qed.
  Definition wts (d : list R) : list (option (list Qc)) :=
    match d with [] => repeat None (length keys) | _ => map (fun i => Some (sums (width i) (part i) d)) (seq 0 (length keys)) end.
  Lemma wts_ne d : d <> [] -> wts d = map (fun i => Some (sums (width i) (part i) d)) (seq 0 (length keys)).
  Proof. destruct d; [intros H; destruct (H eq_refl)|reflexivity]. Qed.
  Lemma wts_length d : length (wts d) = length keys.
  Proof. unfold wts. destruct d; [apply repeat_length|rewrite map_length; apply seq_length]. Qed.
  Lemma add_all_wts d p : p <> [] -> add_all (wts d) (map (fun i => sums (width i) (part i) p) (seq 0 (length keys))) = Ok (wts (d ++ p)).
  Proof.
    intros N. rewrite (wts_ne (d ++ p)) by (destruct d; [exact N|discriminate]). destruct d as [|x d].
    - cbn [wts app]. generalize 0. generalize (length keys). induction n as [|n IH]; intros k; [reflexivity|]. cbn [repeat seq map add_all]. rewrite IH. reflexivity.
    - rewrite wts_ne by discriminate. generalize (seq 0 (length keys)). induction l as [|i l IH]; [reflexivity|]. cbn [map add_all]. rewrite IH. cbn [bind add_weights]. rewrite (sums_app (width i) (part i) (x :: d) p). reflexivity.
  Qed.
  Lemma merge_all_none n cur : length cur = n -> merge_all n cur (repeat None n) = Ok cur.
  Proof. revert cur. induction n as [|n IH]; intros [|c cur] L; try discriminate; [reflexivity|]. cbn [repeat merge_all]. rewrite IH by (injection L; auto). reflexivity. Qed.
  Lemma merge_all_wts d p : merge_all (length keys) (wts d) (wts p) = Ok (wts (d ++ p)).
  Proof.
    destruct p as [|y p]; [rewrite app_nil_r; apply merge_all_none, wts_length|].
    rewrite (wts_ne (d ++ y :: p)) by (destruct d; discriminate). rewrite (wts_ne (y :: p)) by discriminate. destruct d as [|x d].
    - cbn [wts app]. generalize 0. generalize (length keys). induction n as [|n IH]; intros k; [reflexivity|]. cbn [repeat seq map merge_all]. rewrite IH. reflexivity.
    - rewrite wts_ne by discriminate. generalize 0. generalize (length keys). induction n as [|n IH]; intros k; [reflexivity|]. cbn [seq map merge_all]. rewrite IH. cbn [bind add_weights]. rewrite (sums_app (width k) (part k) (x :: d) (y :: p)). reflexivity.
  Qed.
  Definition holds_rows (a : res k_acc) (rows : list R) : Prop := exists d p, a = Ok (KAcc p (wts d)) /\ Permutation (d ++ p) rows.
  Lemma process_wts d p : Forall good p -> k_process update (KAcc p (wts d)) = Ok (KAcc [] (wts (d ++ p))).
  Proof.
    intros G. unfold k_process. cbn [kk_rows kk_weights]. destruct p as [|x p]; [rewrite app_nil_r; reflexivity|]. rewrite (add (x :: p)) by (discriminate || exact G). cbn [bind]. rewrite (add_all_wts d (x :: p)) by discriminate. reflexivity.
  Qed.
  Lemma holds_good d p rows : Permutation (d ++ p) rows -> Forall good rows -> Forall good p.
  Proof. intros P G. rewrite Forall_forall in *. intros x I. apply G. eapply Permutation_in; [exact P|]. apply in_or_app. right. exact I. Qed.
  Lemma holds_create : holds_rows (c_create C) [].
  Proof. exists [], []. split; [|constructor]. unfold C. cbn [k_combiner c_create]. unfold k_create. rewrite slots. reflexivity. Qed.
  Lemma holds_compact a rows : Forall good rows -> holds_rows a rows -> exists d, k_compact update a = Ok (KAcc [] (wts d)) /\ Permutation d rows.
  Proof. intros G (d & p & -> & P). exists (d ++ p). split; [|exact P]. unfold k_compact. cbn [bind]. apply process_wts, (holds_good d p rows P G). Qed.
  Lemma holds_add a rows e r : Forall good (rows ++ [r]) -> row_of e = Ok r -> holds_rows a rows -> holds_rows (c_add C a e) (rows ++ [r]).
  Proof.
    intros G Q (d & p & -> & P). unfold C. cbn [k_combiner c_add bind]. unfold k_add. rewrite Q. cbn [bind kk_rows kk_weights].
    assert (P' : Permutation (d ++ (p ++ [r])) (rows ++ [r])) by (rewrite app_assoc; apply Permutation_app_tail, P).
    destruct (flush (p ++ [r])).
    - rewrite process_wts by exact (holds_good d _ _ P' G). exists (d ++ (p ++ [r])), []. rewrite app_nil_r. split; [reflexivity|exact P'].
    - exists d, (p ++ [r]). split; [reflexivity|exact P'].
  Qed.
  Lemma holds_merge a rows (ps : list (res k_acc * list R)) : Forall good (rows ++ concat (map snd ps)) -> holds_rows a rows -> Forall (fun q => holds_rows (fst q) (snd q)) ps ->
    holds_rows (c_merge C (a :: map fst ps)) (rows ++ concat (map snd ps)).
  Proof.
    intros G H F. unfold C. cbn [k_combiner c_merge k_merge].
    assert (GA : Forall good rows) by (apply Forall_app in G; apply G). destruct (holds_compact a rows GA H) as (d & Q & P). unfold k_compact in Q. rewrite Q. clear Q H GA.
    assert (K : forall done rest, Permutation d done -> Forall good (concat (map snd rest)) -> Forall (fun q => holds_rows (fst q) (snd q)) rest ->
      holds_rows (fold_left (fun acc b => let! x := acc in let! b := b in let! y := k_process update b in let! ws := merge_all (length keys) (kk_weights x) (kk_weights y) in Ok (KAcc (kk_rows x) ws)) (map fst rest) (Ok (KAcc [] (wts d)))) (done ++ concat (map snd rest))).
    { clear G F P ps rows a. intros done rest. revert d done. induction rest as [|[b br] rest IH]; intros d done P G F.
      - cbn. exists d, []. rewrite !app_nil_r. split; [reflexivity|exact P].
      - cbn [map snd fst concat fold_left bind]. inversion F as [|? ? H F']; subst. cbn [fst snd] in H. cbn [map snd concat] in G. apply Forall_app in G. destruct G as [G1 G2].
        destruct H as (d2 & p2 & -> & P2). cbn [bind]. rewrite process_wts by exact (holds_good d2 p2 br P2 G1). cbn [bind kk_weights kk_rows]. rewrite merge_all_wts. cbn [bind]. rewrite (app_assoc done).
        apply IH; [|exact G2|exact F']. apply Permutation_app; assumption. }
    apply K; [exact P| |exact F]. apply Forall_app in G. apply G.
  Qed.
  Definition expected_values (rows : list R) : list (metric_key * num) :=
    map (fun ik => (snd ik, value (fst ik) (match rows with [] => nth (fst ik) zero [] | _ => sums (width (fst ik)) (part (fst ik)) rows end))) (combine (seq 0 (length keys)) keys).
  Lemma extract_values a rows : NoDup keys -> Forall good rows -> holds_rows a rows -> c_extract C a = Ok (expected_values rows).
  Proof.
    intros N G H. destruct (holds_compact a rows G H) as (d & Q & P). unfold C. cbn [k_combiner c_extract]. destruct a as [a|]; [|discriminate]. unfold k_compact in Q. cbn [bind] in Q |- *. unfold k_extract. rewrite Q. cbn [bind kk_weights].
    set (step := fun dd ik => _). set (val := fun ik : nat * metric_key => (snd ik, value (fst ik) (match rows with [] => nth (fst ik) zero [] | _ => sums (width (fst ik)) (part (fst ik)) rows end))).
    assert (W : forall i k dd, i < length keys -> ~ In k (dkeys dd) -> step dd (i, k) = Ok (dd ++ [val (i, k)])).
    { intros i k dd I NI. unfold step, val. cbn [fst snd].
      assert (NW : nth_error (wts d) i = Some (match d with [] => None | _ => Some (sums (width i) (part i) d) end)).
      { unfold wts. destruct d as [|x d]; [rewrite (nth_error_nth' _ None) by (rewrite repeat_length; exact I); rewrite nth_repeat; reflexivity|].
        rewrite nth_error_map, (nth_error_nth' _ 0) by (rewrite seq_length; exact I). rewrite seq_nth by exact I. reflexivity. }
      rewrite NW. f_equal.
      assert (DN : forall v, dset metric_key_eqb dd k v = dd ++ [(k, v)]).
      { intros v. revert NI. clear. induction dd as [|[k' v'] dd IH]; intros NI; [reflexivity|]. cbn [dset]. destruct (metric_key_eqb k k') eqn:Ek; [apply metric_key_eqb_eq in Ek; subst k'; destruct NI; left; reflexivity|]. rewrite IH; [reflexivity|]. intros I. apply NI. right. exact I. }
      rewrite DN. do 4 f_equal. destruct d as [|x d]; [apply Permutation_nil in P; subst rows; reflexivity|]. destruct rows as [|y rows]; [apply Permutation_sym, Permutation_nil in P; discriminate|]. apply sums_perm, P. }
    unfold expected_values. fold val. cut (forall done rest, keys = done ++ rest -> forall dd, dkeys dd = done -> foldM step (combine (seq (length done) (length rest)) rest) dd = Ok (dd ++ map val (combine (seq (length done) (length rest)) rest))).
    { intros K. apply (K [] keys eq_refl [] eq_refl). }
    intros done rest. revert done. induction rest as [|k rest IH]; intros done EK dd DK; [cbn; rewrite app_nil_r; reflexivity|]. cbn [length seq combine foldM map].
    assert (NI : ~ In k (dkeys dd)) by (rewrite DK; rewrite EK in N; apply NoDup_remove_2 in N; intros I; apply N, in_or_app; left; exact I).
    rewrite W; [|rewrite EK, app_length; cbn; lia|exact NI]. cbn [bind]. specialize (IH (done ++ [k])). rewrite app_length in IH. cbn [length] in IH. rewrite Nat.add_1_r in IH. rewrite IH; [rewrite <- app_assoc; reflexivity|rewrite <- app_assoc; exact EK|].
    unfold dkeys. rewrite map_app. fold (dkeys dd). rewrite DK. reflexivity.
  Qed.
  Lemma mapM_app_ok (l k : list E) rows : mapM row_of (l ++ k) = Ok rows -> exists a b, mapM row_of l = Ok a /\ mapM row_of k = Ok b /\ rows = a ++ b.
  Proof.
    revert rows. induction l as [|x l IH]; intros rows H; [exists [], rows; auto|]. cbn [app mapM] in H |- *. destruct (row_of x) as [r|]; [|discriminate]. cbn [bind] in H |- *. revert H. destruct (mapM row_of (l ++ k)) as [t|]; [|discriminate]. intros H. injection H as <-.
    destruct (IH t eq_refl) as (a & b & -> & -> & ->). exists (r :: a), b. auto.
  Qed.
  Definition keep_rows (l : list (option E)) : list E := flat_map (fun x => match x with Some e => [e] | None => [] end) l.
  Definition compacting : combiner (option E) (res k_acc) (res (list (metric_key * num))) :=
    Combiner (c_create C) (fun a x => match x with Some e => c_add C a e | None => k_compact update a end) (c_merge C) (c_extract C).
  Definition represents (a : res k_acc) (l : list E) : Prop := forall rows, mapM row_of l = Ok rows -> Forall good rows -> holds_rows a rows.
  Lemma represents_add a l e : represents a l -> represents (c_add C a e) (l ++ [e]).
  Proof.
    intros H rows M G. destruct (mapM_app_ok _ _ _ M) as (ra & rb & Ma & Mb & ->). cbn [mapM] in Mb. destruct (row_of e) as [r|] eqn:Q; [|discriminate]. injection Mb as <-. apply holds_add; [exact G|exact Q|]. apply H; [exact Ma|]. apply Forall_app in G. apply G.
  Qed.
  Lemma represents_merge a l (ps : list (res k_acc * list E)) : represents a l -> Forall (fun q => represents (fst q) (snd q)) ps -> represents (c_merge C (a :: map fst ps)) (l ++ concat (map snd ps)).
  Proof.
    intros H F rows M G. destruct (mapM_app_ok _ _ _ M) as (ra & rb & Ma & Mb & ->).
    assert (K : exists qs : list (res k_acc * list R), map fst qs = map fst ps /\ concat (map snd qs) = rb /\ Forall (fun q => holds_rows (fst q) (snd q)) qs).
    { apply Forall_app in G. destruct G as [_ G]. clear - Mb F G. revert rb Mb G. induction F as [|[b bl] ps Hq F IH]; intros rb Mb G; [injection Mb as <-; exists []; auto|]. cbn [map snd concat] in Mb. destruct (mapM_app_ok _ _ _ Mb) as (r1 & r2 & M1 & M2 & ->). apply Forall_app in G. destruct G as [G1 G2].
      destruct (IH r2 M2 G2) as (qs & Q1 & Q2 & Q3). exists ((b, r1) :: qs). cbn [map fst snd concat]. rewrite Q1, Q2. split; [reflexivity|]. split; [reflexivity|]. constructor; [|exact Q3]. apply (Hq r1 M1 G1). }
    destruct K as (qs & K1 & K2 & K3). rewrite <- K1, <- K2. apply holds_merge; [rewrite K2; exact G| |exact K3]. apply H; [exact Ma|]. apply Forall_app in G. apply G.
  Qed.
  Lemma schedule_values s rows : NoDup keys -> mapM row_of (inputs s) = Ok rows -> Forall good rows -> outcome C s = Ok (expected_values rows).
  Proof.
    intros N M G. unfold outcome. apply extract_values; [exact N|exact G|]. apply (rel_run C represents); [| | |exact M|exact G].
    - intros r H _. injection H as <-. apply holds_create.
    - intros a l e H. apply represents_add, H.
    - intros a l ps H F. apply represents_merge; assumption.
  Qed.
  Lemma keep_rows_app a b : keep_rows (a ++ b) = keep_rows a ++ keep_rows b.
  Proof. apply flat_map_app. Qed.
  Lemma schedule_compacted s rows : NoDup keys -> mapM row_of (keep_rows (inputs s)) = Ok rows -> Forall good rows -> outcome compacting s = Ok (expected_values rows).
  Proof.
    intros N M G. unfold outcome, compacting at 1. cbn [c_extract]. apply extract_values; [exact N|exact G|]. apply (rel_run compacting (fun a l => represents a (keep_rows l))); [| | |exact M|exact G].
    - intros r H _. injection H as <-. apply holds_create.
    - intros a l x H. rewrite keep_rows_app. unfold compacting. cbn [c_add]. destruct x as [e|]; [apply represents_add, H|]. cbn [keep_rows flat_map]. rewrite app_nil_r. intros r Mr Gr.
      destruct (holds_compact a r Gr (H r Mr Gr)) as (d & -> & P). exists d, []. rewrite app_nil_r. auto.
    - intros a l ps H F. unfold compacting. cbn [c_merge]. rewrite keep_rows_app.
      replace (keep_rows (concat (map snd ps))) with (concat (map snd (map (fun q : res k_acc * list (option E) => (fst q, keep_rows (snd q))) ps))).
      2: { rewrite map_map. cbn [snd]. clear. induction ps as [|q ps IH]; [reflexivity|]. cbn [map concat]. rewrite keep_rows_app, IH. reflexivity. }
      replace (map fst ps) with (map fst (map (fun q : res k_acc * list (option E) => (fst q, keep_rows (snd q))) ps)) by (rewrite map_map; reflexivity).
      apply represents_merge; [exact H|]. apply Forall_map. exact F.
  Qed.

End Schedule.

Lemma C263_schedule_pf :
  forall (E R : Type) (row_of : E -> res R) keys update zero value flush (good : R -> Prop) width part,
    NoDup keys -> enough_slots keys ->
    (forall l, l <> [] -> Forall good l -> update l = Ok (map (fun i => sums (width i) (part i) l) (seq 0 (length keys)))) ->
    (forall s rows, mapM row_of (inputs s) = Ok rows -> Forall good rows ->
       outcome (k_combiner row_of keys update zero value flush) s = Ok (expected_values keys zero value width part rows)) /\
    (forall s rows, mapM row_of (keep_rows (inputs s)) = Ok rows -> Forall good rows ->
       outcome (compacting row_of keys update zero value flush) s = Ok (expected_values keys zero value width part rows)).
Proof.
  intros E R row_of keys update zero value flush good width part N S A. apply enough_slots_count in S. split; intros s rows M G.
  - apply (schedule_values row_of keys update zero value flush good width part A S); assumption.
  - apply (schedule_compacted row_of keys update zero value flush good width part A S); assumption.
Qed.

Lemma C263_several_outputs_refuted_pf :
  exists keys, NoDup keys /\ length keys = 2 /\ forall (value : nat -> list Qc -> num) zero (w : nat -> list Qc) (x : Z),
    outcome (k_combiner (fun e : Z => Ok e) keys (fun _ => Ok [w 0; w 1]) zero value (fun _ => false)) (Bundle [x]) = Err IndexError.
Proof.
  exists [MetricKey "auc" "" "a" None None None false; MetricKey "auc" "" "b" None None None false]. split; [|split; [reflexivity|reflexivity]].
  constructor; [intros [H|[]]; discriminate|]. constructor; [intros []|constructor].
Qed.

Definition ex_keys : list metric_key := [MetricKey "loss" "" "" None None None false; MetricKey "mean" "" "a" None None None false].

Definition ex_kcombiner (flush : list Z -> bool) :=
  k_combiner (fun e : Z => if Z.ltb e 0 then Err ValueError else Ok e) ex_keys (fun l => Ok [[qsum (map qz l)]; [qz (Z.of_nat (length l))]]) [[0%Qc]; [0%Qc]] (fun _ w => Fin (hd 0%Qc w)) flush.
