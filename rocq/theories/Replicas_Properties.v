(* Replicas *)
From Coq Require Import String Ascii Permutation.
From Verif Require Import Base BaseFacts Means_Model CI_Model CI_Main Setup_Main Replicas_Model.
From Verif Require Import Replicas_Main.
Local Open Scope string_scope.
Local Open Scope list_scope.

(* ------------------------------------------------------------------ *)
(** ** Values at a place *)
(* ------------------------------------------------------------------ *)
(** ** The numbers *)
(* ------------------------------------------------------------------ *)
(** ** The values of each name *)
(* ------------------------------------------------------------------ *)
(** ** C305 values and intervals *)
(** Of each slice with two replicas or more, in whatever order they come, each number has the mean, the
    standard deviation and the degrees of freedom of its replicas that are not NaN. *)
Theorem C305_values : forall (K : Type) (keqb : K -> K -> bool) compute shuffle n out k ms, (forall l, Permutation (shuffle l) l) ->
  (1 < n)%Z -> compute_with_intervals keqb compute shuffle (Some n) = Ok out -> In (k, ms) out -> proper_metrics compute -> 2 <= length (replicas_of keqb compute n k) ->
  (forall name, In name (map fst ms) <-> exists m, In m (replicas_of keqb compute n k) /\ In name (map fst m)) /\
  forall name s, In (name, s) ms -> exists u v, dget keqb (compute None) k = Some u /\ dget String.eqb u name = Some v /\ (is_message v -> s = AsIs v) /\
    (~ is_message v -> forall p xs, numbers_at p (values_of name (replicas_of keqb compute n k)) xs ->
       exists m var d w, shown_at s p = Some (TDist m var d w) /\ described xs m var d).
Proof. exact C305_values_pf. Qed.

(** If the replicas of each slice have the names and structures of the metrics without sampling then all
    is accepted. *)
Theorem C305_accepted : forall (K : Type) (keqb : K -> K -> bool) compute shuffle n, (forall a b, keqb a b = true <-> a = b) -> (forall l, Permutation (shuffle l) l) -> (1 < n)%Z -> proper_metrics compute ->
  (forall k, 2 <= length (replicas_of keqb compute n k) -> exists u, dget keqb (compute None) k = Some u /\
     (forall name, In name (map fst u) <-> exists m, In m (replicas_of keqb compute n k) /\ In name (map fst m)) /\
     forall name v, dget String.eqb u name = Some v -> is_message v \/ messageless v /\ Forall (alike v) (values_of name (replicas_of keqb compute n k))) ->
  is_ok (compute_with_intervals keqb compute shuffle (Some n)) = true.
Proof. exact C305_accepted_pf. Qed.

Example C305_ex1 :
  compute_with_intervals String.eqb (two_replicas [("auc", VNum (Fin (qz 3))); ("counts", VList [VNum (Fin (qz 4)); VNum (Fin (qz 9))]); ("plot", VMessage "p")]
      [("auc", VNum (Fin (qz 2))); ("counts", VList [VNum (Fin (qz 5)); VNum NaN]); ("plot", VMessage "q")]
      [("auc", VNum (Fin (qz 6))); ("counts", VList [VNum (Fin (qz 5)); VNum (Fin (qz 8))]); ("plot", VMessage "r")]) (@rev _) (Some 2%Z) =
  Ok [("all", [("auc", TDist (Fin (qz 4)) (Fin (qz 8)) 1 (VNum (Fin (qz 3))));
               ("counts", ShownList [TDist (Fin (qz 5)) (Fin 0%Qc) 1 (VNum (Fin (qz 4))); TDist (Fin (qz 8)) NaN 0 (VNum (Fin (qz 9)))]);
               ("plot", AsIs (VMessage "p"))])].
Proof. qc_ex. Qed.

Example C305_ex2 : compute_with_intervals String.eqb (two_replicas [("auc", VNum (Fin (qz 3)))] [("auc", VList [VNum (Fin (qz 2))])] [("auc", VNum (Fin (qz 2)))]) (fun l => l) (Some 2%Z) = Err TypeError.
Proof. reflexivity. Qed.

(* ------------------------------------------------------------------ *)
(** ** C306 the value without sampling *)
(** It comes with the interval if one of the replicas at least is not NaN. *)
Theorem C306_unsampled_value_kept_partial : forall (K : Type) (keqb : K -> K -> bool) compute shuffle n out k ms name s u v p xs, (forall l, Permutation (shuffle l) l) ->
  (1 < n)%Z -> compute_with_intervals keqb compute shuffle (Some n) = Ok out -> In (k, ms) out -> proper_metrics compute -> 2 <= length (replicas_of keqb compute n k) ->
  In (name, s) ms -> dget keqb (compute None) k = Some u -> dget String.eqb u name = Some v -> ~ is_message v -> numbers_at p (values_of name (replicas_of keqb compute n k)) xs -> kept xs <> [] ->
  exists m var d w, value_at v p = Some w /\ shown_at s p = Some (TDist m var d w).
Proof. exact C306_unsampled_value_kept_partial_pf. Qed.

(** If all replicas are NaN then the value without sampling is lost. *)
Theorem C306_unsampled_value_kept_refuted : exists (compute : option nat -> list (string * metrics)) out, proper_metrics compute /\
  compute None = [("all", [("auc", VNum (Fin (qz 3)))])] /\ (forall i, compute (Some i) = [("all", [("auc", VNum NaN)])]) /\
  compute_with_intervals String.eqb compute (fun l => l) (Some 20%Z) = Ok [("all", out)] /\ out = [("auc", TDist NaN NaN (-1)%Z (VNum NaN))].
Proof. exact C306_unsampled_value_kept_refuted_pf. Qed.

Example C306_ex1 : compute_with_intervals String.eqb (two_replicas [("auc", VNum (Fin (qz 3)))] [("auc", VNum NaN)] [("auc", VNum (Fin (qz 1)))]) (fun l => l) (Some 2%Z) =
  Ok [("all", [("auc", TDist (Fin (qz 1)) NaN 0 (VNum (Fin (qz 3))))])].
Proof. qc_ex. Qed.

(* ------------------------------------------------------------------ *)
(** ** C307 slices and numbers of samples *)
(** There is one result for each slice any replica has. *)
Theorem C307_slices : forall (K : Type) (keqb : K -> K -> bool) compute shuffle n out, (forall a b, keqb a b = true <-> a = b) -> (forall l, Permutation (shuffle l) l) ->
  (1 < n)%Z -> compute_with_intervals keqb compute shuffle (Some n) = Ok out ->
  NoDup (map fst out) /\ forall k, In k (map fst out) <-> exists i, (Z.of_nat i < n)%Z /\ In k (map fst (compute (Some i))).
Proof. exact C307_slices_pf. Qed.

(** Without a number of samples, or with 0 or 1, metrics are those without sampling; a negative number
    is refused. *)
Theorem C307_samples : forall (K : Type) (keqb : K -> K -> bool) compute shuffle n,
  (n = None \/ n = Some 0%Z \/ n = Some 1%Z -> compute_with_intervals keqb compute shuffle n = Ok (map (fun km => (fst km, map (fun kv => (fst kv, AsIs (snd kv))) (snd km))) (compute None))) /\
  (forall z, n = Some z -> (z < 0)%Z -> compute_with_intervals keqb compute shuffle n = Err ValueError).
Proof. exact C307_samples_pf. Qed.

(** A slice whose replicas do not have just the names of its metrics without sampling is refused. *)
Theorem C307_other_names_refused : forall (K : Type) (keqb : K -> K -> bool) compute shuffle n k name, (forall a b, keqb a b = true <-> a = b) -> (forall l, Permutation (shuffle l) l) ->
  (1 < n)%Z -> proper_metrics compute -> 2 <= length (replicas_of keqb compute n k) ->
  ~ ((exists m, In m (replicas_of keqb compute n k) /\ In name (map fst m)) <-> (exists u, dget keqb (compute None) k = Some u /\ In name (map fst u))) ->
  is_ok (compute_with_intervals keqb compute shuffle (Some n)) = false.
Proof. exact C307_other_names_refused_pf. Qed.

Example C307_ex1 : compute_with_intervals String.eqb (fun i => match i with None => [("a", [("m", VNum (Fin (qz 1)))]); ("b", [])] | Some 0 => [("a", [("m", VNum (Fin (qz 2)))])] | Some _ => [("c", [("m", VNum (Fin (qz 7)))])] end) (fun l => l) (Some 2%Z)
  = Ok [("a", [("m", AsIs (VNum (Fin (qz 2))))]); ("c", [("m", AsIs (VNum (Fin (qz 7))))])].
Proof. reflexivity. Qed.

Example C307_ex2 : compute_with_intervals String.eqb (two_replicas [("auc", VNum (Fin (qz 3)))] [("auc", VNum (Fin (qz 3)))] [("auc", VNum (Fin (qz 3))); ("loss", VNum (Fin (qz 3)))]) (fun l => l) (Some 2%Z) = Err ValueError.
Proof. reflexivity. Qed.

Print Assumptions C305_values.
Print Assumptions C305_accepted.
Print Assumptions C306_unsampled_value_kept_partial.
Print Assumptions C306_unsampled_value_kept_refuted.
Print Assumptions C307_slices.
Print Assumptions C307_samples.
Print Assumptions C307_other_names_refused.
