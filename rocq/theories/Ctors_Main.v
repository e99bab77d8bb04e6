(* Proofs of the theorems restated in Ctors_Properties.v. *)
From Coq Require Import String Ascii.
From Verif Require Import Base BaseFacts Specs_Model Setup_Main Ctors_Model.
Local Open Scope string_scope.
Local Open Scope list_scope.

(* C297 - C300: metrics from their configs and the calls that make their computations. *)

Definition default_of (l : level) (k : string) : option json :=
  match dget String.eqb (lv_params l) k with Some d => d | None => None end.

(** The value of k if it is not given. *)

Fixpoint default (c : ctor) (k : string) : option json :=
  match c with
  | Root => None
  | Sub l b => if is_param l k then default_of l k
               else if lv_kwargs l && negb (dmem String.eqb (lv_super l) k) then default b k else None
  end.

(** k arrives as it is given. *)

Fixpoint carried (c : ctor) (k : string) : bool :=
  match c with
  | Root => true
  | Sub l b =>
      match dget String.eqb (lv_super l) k with
      | Some (Arg p) => String.eqb p k && is_param l k && carried b k
      | Some _ => false
      | None => lv_kwargs l && negb (is_param l k) && carried b k
      end
  end.

(** k cannot be given, and what arrives for it. *)

Fixpoint unset (c : ctor) (k : string) : option (option json) :=
  match c with
  | Root => None
  | Sub l b =>
      if is_param l k then None
      else match dget String.eqb (lv_super l) k with
           | Some (Const v) => if carried b k then Some (Some v) else None
           | Some _ => None
           | None => if lv_kwargs l then unset b k else if carried b k then Some (default b k) else unset b k
           end
  end.

Fixpoint mentioned (c : ctor) : list string :=
  match c with Root => [] | Sub l b => map fst (lv_params l) ++ map fst (lv_super l) ++ mentioned b end.

Fixpoint nodupb (l : list string) : bool := match l with [] => true | x :: t => negb (memb String.eqb x t) && nodupb t end.

Definition quiet (e : string * expr) : bool :=
  match snd e with Arg p => negb (String.eqb p "name") || String.eqb (fst e) "name" | NameOr _ => false | _ => true end.

Fixpoint tidy (c : ctor) : bool :=
  match c with Root => true | Sub l b => nodupb (map fst (lv_params l)) && nodupb (map fst (lv_super l)) && forallb quiet (lv_super l) && tidy b end.

Definition none_keys (c : metric_class) : list string := flat_map (fun s => match s with DropNone ks => ks | _ => [] end) (mc_config c).

Definition always_keys (c : metric_class) : list string := flat_map (fun s => match s with DropKey k => [k] | _ => [] end) (mc_config c).

Definition is_null (v : option json) : bool := match v with Some JNull => true | _ => false end.

Definition good_key (c : metric_class) (k : string) : bool :=
  let k_none := memb String.eqb k (none_keys c) in
  let k_always := memb String.eqb k (always_keys c) in
  if String.eqb k "preprocessors" then negb k_none && negb k_always
  else if carried (mc_ctor c) k then (negb k_none || is_null (default (mc_ctor c) k)) && negb k_always
  else match unset (mc_ctor c) k with
       | Some None => negb k_none && negb k_always
       | Some (Some v) => k_always && negb k_none || k_none && negb k_always && is_null (Some v)
       | None => false
       end.

Fixpoint passed (c : ctor) : list string := match c with Root => [] | Sub l b => map fst (lv_super l) ++ passed b end.

Definition good (c : metric_class) : bool :=
  tidy (mc_ctor c) && nodupb (none_keys c ++ always_keys c) &&
  negb (memb String.eqb "fn" (passed (mc_ctor c) ++ none_keys c ++ always_keys c)) && negb (memb String.eqb "preprocessors" (passed (mc_ctor c))) &&
  negb (memb String.eqb "name" (none_keys c ++ always_keys c)) &&
  forallb (good_key c) ("name" :: none_keys c ++ always_keys c ++ mentioned (mc_ctor c)).

Lemma seqb_true a b : String.eqb a b = true -> a = b. Proof. apply String.eqb_eq. Qed.

Lemma seqb_neq a b : a <> b -> String.eqb a b = false. Proof. apply String.eqb_neq. Qed.

Lemma nodupb_NoDup l : nodupb l = true -> NoDup l.
Proof.
  induction l as [|x t IH]; cbn; [constructor|]. intros H. apply andb_prop in H. destruct H as [H1 H2]. constructor; [|auto].
  intros I. apply negb_true_iff in H1. apply (memb_In String.eqb String.eqb_eq) in I. congruence.
Qed.

Lemma dget_some_In {A} (d : list (string * A)) k v : dget String.eqb d k = Some v -> In (k, v) d.
Proof. intros H. destruct (dget_In String.eqb String.eqb_eq d k v H) as (k' & I & E) || (pose proof (dget_In String.eqb String.eqb_eq d k v H) as I); exact I. Qed.

Lemma dget_none_key {A} (d : list (string * A)) k : dget String.eqb d k = None <-> ~ In k (map fst d).
Proof.
  induction d as [|[k' v] t IH]; cbn [dget map fst In].
  - tauto.
  - destruct (String.eqb k k') eqn:E; [apply seqb_true in E; subst; split; [discriminate|tauto]|]. rewrite IH.
    assert (k' <> k) by (intros ->; rewrite String.eqb_refl in E; discriminate). tauto.
Qed.

Lemma dmem_key {A} (d : list (string * A)) k : dmem String.eqb d k = true <-> In k (map fst d).
Proof.
  unfold dmem. destruct (dget String.eqb d k) eqn:E.
  - split; [intros _|auto]. apply dget_some_In in E. apply (in_map fst) in E. exact E.
  - apply dget_none_key in E. split; [discriminate|tauto].
Qed.

Lemma param_In l k : is_param l k = true <-> In k (map fst (lv_params l)).
Proof. unfold is_param. apply (memb_In String.eqb String.eqb_eq). Qed.

Lemma dget_app {A} (d e : list (string * A)) k : dget String.eqb (d ++ e) k = match dget String.eqb d k with Some v => Some v | None => dget String.eqb e k end.
Proof. induction d as [|[k' v] t IH]; cbn [dget app]; [reflexivity|]. destruct (String.eqb k k'); [reflexivity|exact IH]. Qed.

Lemma dget_filter {A} (f : string -> bool) (d : list (string * A)) k :
  dget String.eqb (filter (fun kv => f (fst kv)) d) k = if f k then dget String.eqb d k else None.
Proof.
  induction d as [|[k' v] t IH]; cbn [dget filter fst]; [destruct (f k); reflexivity|].
  destruct (String.eqb k k') eqn:E.
  - apply seqb_true in E. subst. destruct (f k') eqn:F; cbn [dget]; [rewrite String.eqb_refl; reflexivity|]. rewrite IH. reflexivity.
  - destruct (f k') eqn:F; cbn [dget]; [rewrite E|]; exact IH.
Qed.

Lemma dget_map_snd {A B} (f : A -> B) (d : list (string * A)) k :
  dget String.eqb (map (fun kv => (fst kv, f (snd kv))) d) k = option_map f (dget String.eqb d k).
Proof. induction d as [|[k' v] t IH]; cbn [dget map fst snd]; [reflexivity|]. destruct (String.eqb k k'); [reflexivity|exact IH]. Qed.

(** The arguments as bound. *)

Definition bound (l : level) (kw : settings) (p : string) : option json :=
  match dget String.eqb kw p with Some v => Some v | None => default_of l p end.

Lemma mapM_bound kw ps env :
  mapM (fun pd : string * option json => match dget String.eqb kw (fst pd), snd pd with
                       | Some v, _ | None, Some v => Ok (fst pd, v)
                       | None, None => Err TypeError
                       end) ps = Ok env ->
  forall p, dget String.eqb env p = match dget String.eqb ps p with
                                    | Some d => match dget String.eqb kw p with Some v => Some v | None => d end
                                    | None => None
                                    end.
Proof.
  revert env. induction ps as [|[p0 d0] t IH]; intros env E p; cbn [mapM fst snd] in E.
  - injection E as <-. reflexivity.
  - destruct (dget String.eqb kw p0) as [v|] eqn:D.
    + cbn [bind] in E. apply bind_ok in E. destruct E as (env' & E' & E). injection E as <-. cbn [dget]. destruct (String.eqb p p0) eqn:Q; [apply seqb_true in Q; subst; rewrite D; reflexivity|]. apply IH. exact E'.
    + destruct d0 as [v|]; [|discriminate]. cbn [bind] in E. apply bind_ok in E. destruct E as (env' & E' & E). injection E as <-. cbn [dget]. destruct (String.eqb p p0) eqn:Q; [apply seqb_true in Q; subst; rewrite D; reflexivity|]. apply IH. exact E'.
Qed.

Lemma mapM_required kw ps env :
  mapM (fun pd : string * option json => match dget String.eqb kw (fst pd), snd pd with
                       | Some v, _ | None, Some v => Ok (fst pd, v)
                       | None, None => Err TypeError
                       end) ps = Ok env ->
  forall p d, In (p, d) ps -> dget String.eqb kw p <> None \/ d <> None.
Proof.
  revert env. induction ps as [|[p0 d0] t IH]; intros env E p d I; [destruct I|]. cbn [mapM fst snd] in E. destruct I as [[= -> ->]|I].
  - destruct (dget String.eqb kw p); [left; discriminate|]. destruct d; [right; discriminate|discriminate].
  - destruct (dget String.eqb kw p0) as [v|]; [|destruct d0 as [v|]; [|discriminate]]; cbn [bind] in E; apply bind_ok in E; destruct E as (env' & E' & _); exact (IH _ E' p d I).
Qed.

Lemma bind_args_ok l kw env : bind_args l kw = Ok env ->
  (lv_kwargs l = false -> forall k, is_param l k = false -> dget String.eqb kw k = None) /\
  (forall p, is_param l p = true -> dget String.eqb env p = bound l kw p /\ bound l kw p <> None) /\
  (forall p, is_param l p = false -> dget String.eqb env p = None).
Proof.
  unfold bind_args. destruct (negb (lv_kwargs l) && existsb (fun kv => negb (is_param l (fst kv))) kw) eqn:X; [discriminate|]. intros E. split; [|split].
  - intros K k P. rewrite K in X. cbn [negb andb] in X. destruct (dget String.eqb kw k) as [v|] eqn:D; [|reflexivity]. exfalso. apply dget_some_In in D.
    assert (Y : existsb (fun kv => negb (is_param l (fst kv))) kw = true); [|congruence]. apply existsb_exists. exists (k, v). split; [exact D|]. cbn [fst]. rewrite P. reflexivity.
  - intros p P. assert (B := mapM_bound _ _ _ E p). assert (R := mapM_required _ _ _ E p). unfold bound, default_of.
    destruct (dget String.eqb (lv_params l) p) as [d|] eqn:D; [|apply dget_none_key in D; apply param_In in P; contradiction].
    split; [exact B|]. destruct (R d (dget_some_In _ _ _ D)) as [N|N]; destruct (dget String.eqb kw p); congruence.
  - intros p P. rewrite (mapM_bound _ _ _ E p). destruct (dget String.eqb (lv_params l) p) as [d|] eqn:D; [|reflexivity]. exfalso.
    apply dget_some_In in D. apply (in_map fst) in D. apply param_In in D. cbn [fst] in D. congruence.
Qed.

Definition extra (l : level) (kw : settings) (k : string) : option json :=
  if lv_kwargs l && negb (is_param l k) then dget String.eqb kw k else None.

Lemma super_args_ok l env kw kw' : super_args l env kw = Ok kw' ->
  (forall k, dget String.eqb kw' k = match dget String.eqb (lv_super l) k with Some e => Some (eval env e) | None => extra l kw k end) /\
  (lv_kwargs l = true -> forall k, dmem String.eqb (lv_super l) k = true -> is_param l k = false -> dget String.eqb kw k = None).
Proof.
  unfold super_args. set (given := map (fun ke => (fst ke, eval env (snd ke))) (lv_super l)). intros E.
  assert (G : forall k, dget String.eqb given k = option_map (eval env) (dget String.eqb (lv_super l) k)) by (intros k; apply dget_map_snd).
  destruct (lv_kwargs l) eqn:K.
  - destruct (existsb _ _) eqn:X in E; [discriminate|]. injection E as <-. split.
    + intros k. rewrite dget_app, G. destruct (dget String.eqb (lv_super l) k) as [e|]; cbn [option_map]; [reflexivity|]. rewrite (dget_filter (fun k => negb (is_param l k))). unfold extra. rewrite K. reflexivity.
    + intros _ k M P. destruct (dget String.eqb kw k) as [v|] eqn:D; [|reflexivity]. exfalso.
      assert (Y : existsb (fun kv => dmem String.eqb given (fst kv)) (filter (fun kv => negb (is_param l (fst kv))) kw) = true); [|congruence].
      apply existsb_exists. exists (k, v). split; [apply filter_In; split; [apply dget_some_In; exact D|cbn [fst]; rewrite P; reflexivity]|]. cbn [fst]. unfold dmem in M |- *. rewrite G. destruct (dget String.eqb (lv_super l) k); [reflexivity|discriminate].
  - injection E as <-. split; [|discriminate]. intros k. rewrite G. unfold extra. rewrite K. cbn [andb]. destruct (dget String.eqb (lv_super l) k); reflexivity.
Qed.

Lemma make_sub l b kw m : make (Sub l b) kw = Ok m ->
  exists env kw', bind_args l kw = Ok env /\ lv_check l (unnamed env) = Ok tt /\ super_args l env kw = Ok kw' /\ make b kw' = Ok m.
Proof.
  cbn [make]. intros E. apply bind_ok in E. destruct E as (env & E1 & E). apply bind_ok in E. destruct E as ([] & E2 & E). apply bind_ok in E. destruct E as (kw' & E3 & E). eauto 6.
Qed.

(** An argument that is carried. *)

Lemma carried_arrives c k : carried c k = true -> forall kw m, make c kw = Ok m ->
  dget String.eqb m k = match dget String.eqb kw k with Some v => Some v | None => default c k end.
Proof.
  induction c as [|l b IH]; intros C kw m E.
  - cbn in E. injection E as <-. cbn. destruct (dget String.eqb kw k); reflexivity.
  - apply make_sub in E. destruct E as (env & kw' & B & _ & S & M). destruct (bind_args_ok _ _ _ B) as (_ & B2 & _). destruct (super_args_ok _ _ _ _ S) as (S1 & _).
    cbn [carried] in C. cbn [default]. specialize (S1 k). destruct (dget String.eqb (lv_super l) k) as [[p| | |]|] eqn:D; try discriminate.
    + apply andb_prop in C. destruct C as [C C3]. apply andb_prop in C. destruct C as [C1 C2]. apply seqb_true in C1. subst p. rewrite C2.
      destruct (B2 k C2) as (B3 & B4). rewrite (IH C3 _ _ M), S1. cbn [eval]. rewrite B3. unfold bound in *. destruct (dget String.eqb kw k); [reflexivity|]. destruct (default_of l k); congruence.
    + apply andb_prop in C. destruct C as [C C3]. apply andb_prop in C. destruct C as [C1 C2]. rewrite (IH C3 _ _ M), S1. unfold extra. rewrite C1, C2. apply negb_true_iff in C2. rewrite C2. cbn [andb]. unfold dmem. rewrite D. cbn [negb]. reflexivity.
Qed.

(** One that cannot be given. *)

Lemma unset_arrives c k : forall w, unset c k = Some w -> forall kw m, make c kw = Ok m -> dget String.eqb kw k = None /\ dget String.eqb m k = w.
Proof.
  induction c as [|l b IH]; intros w U kw m E; [discriminate|].
  apply make_sub in E. destruct E as (env & kw' & B & _ & S & M). destruct (bind_args_ok _ _ _ B) as (B1 & _ & _). destruct (super_args_ok _ _ _ _ S) as (S1 & S2).
  cbn [unset] in U. destruct (is_param l k) eqn:P; [discriminate|]. specialize (S1 k). destruct (dget String.eqb (lv_super l) k) as [[ | v| |]|] eqn:D; try discriminate.
  - destruct (carried b k) eqn:C; [|discriminate]. injection U as <-. split.
    + destruct (lv_kwargs l) eqn:K; [|auto]. apply S2; auto. unfold dmem. rewrite D. reflexivity.
    + rewrite (carried_arrives b k C _ _ M), S1. reflexivity.
  - unfold extra in S1. destruct (lv_kwargs l) eqn:K.
    + rewrite P in S1. cbn [andb negb] in S1. destruct (IH _ U _ _ M) as (I1 & I2). split; [congruence|exact I2].
    + cbn [andb] in S1. split; [auto|]. destruct (carried b k) eqn:C; [|exact (proj2 (IH _ U _ _ M))]. injection U as <-. rewrite (carried_arrives b k C _ _ M), S1. reflexivity.
Qed.

(** Names in no parameter list. *)

Lemma not_mentioned c k : ~ In k (mentioned c) -> default c k = None /\ (carried c k = true \/ unset c k = Some None).
Proof.
  induction c as [|l b IH]; cbn [mentioned default carried unset]; [auto|]. intros N. rewrite !in_app_iff in N.
  assert (P : is_param l k = false) by (destruct (is_param l k) eqn:P; [apply param_In in P; tauto|reflexivity]).
  assert (S : dget String.eqb (lv_super l) k = None) by (apply dget_none_key; tauto).
  rewrite P, S. unfold dmem. rewrite S. destruct IH as (I1 & I2); [tauto|]. rewrite I1. split; [destruct (lv_kwargs l); reflexivity|].
  destruct (lv_kwargs l); cbn [andb negb]; [exact I2|]. right. destruct (carried b k); [reflexivity|]. destruct I2; [discriminate|assumption].
Qed.

Definition filled (dn : option string) (v : json) : json :=
  match dn with Some d => if negb (truthy v) && negb (String.eqb d "") then JStr d else v | None => v end.

Lemma fill_name_get dn s k : dget String.eqb (fill_name dn s) k =
  if String.eqb k "name" then option_map (filled dn) (dget String.eqb s k) else dget String.eqb s k.
Proof.
  unfold fill_name, filled. destruct (String.eqb k "name") eqn:K.
  - apply seqb_true in K. subst k. destruct (dget String.eqb s "name") as [v|] eqn:D; cbn [option_map]; [|exact D]. destruct dn as [d|]; [|exact D].
    destruct (negb (truthy v) && negb (String.eqb d "")); [apply (dget_dset_eq String.eqb String.eqb_eq)|exact D].
  - destruct (dget String.eqb s "name") as [v|] eqn:D; [|reflexivity]. destruct dn as [d|]; [|reflexivity].
    destruct (negb (truthy v) && negb (String.eqb d "")); [|reflexivity]. apply (dget_dset_neq String.eqb String.eqb_eq). apply String.eqb_neq in K. congruence.
Qed.

Lemma filled_twice dn v : filled dn (filled dn v) = filled dn v.
Proof.
  unfold filled. destruct dn as [d|]; [|reflexivity]. destruct (negb (truthy v) && negb (String.eqb d "")) eqn:E; [|rewrite E; reflexivity].
  apply andb_prop in E. destruct E as [_ E]. cbn [truthy]. rewrite E. reflexivity.
Qed.

Definition named (c : ctor) (kw : settings) : option json := match dget String.eqb kw "name" with Some v => Some v | None => default c "name" end.

Definition alike (dn : option string) (c : ctor) (kw kw' : settings) : Prop :=
  (forall k, k <> "name" -> dget String.eqb kw k = dget String.eqb kw' k \/
     exists j, default c k = Some j /\ (dget String.eqb kw k = None \/ dget String.eqb kw k = Some j) /\ (dget String.eqb kw' k = None \/ dget String.eqb kw' k = Some j)) /\
  option_map (filled dn) (named c kw) = option_map (filled dn) (named c kw').

Definition name_ok (c : ctor) : Prop := carried c "name" = true \/ exists w, unset c "name" = Some w.

Definition value (kw : settings) (pd : string * option json) : json :=
  match dget String.eqb kw (fst pd) with Some v => v | None => match snd pd with Some v => v | None => JNull end end.

Lemma bind_args_list l kw env : bind_args l kw = Ok env -> env = map (fun pd => (fst pd, value kw pd)) (lv_params l).
Proof.
  unfold bind_args. destruct (_ && _); [discriminate|]. generalize (lv_params l) as ps. intros ps. revert env. induction ps as [|[p d] t IH]; intros env E; cbn [mapM fst snd] in E.
  - injection E as <-. reflexivity.
  - cbn [map fst snd]. unfold value at 1. cbn [fst snd]. destruct (dget String.eqb kw p) as [v|]; [|destruct d as [v|]; [|discriminate]]; cbn [bind] in E; apply bind_ok in E; destruct E as (env' & E' & E); injection E as <-; rewrite (IH _ E'); reflexivity.
Qed.

Lemma bind_args_total l kw :
  (lv_kwargs l = false -> forall k, is_param l k = false -> dget String.eqb kw k = None) -> NoDup (map fst (lv_params l)) ->
  (forall p, is_param l p = true -> bound l kw p <> None) -> exists env, bind_args l kw = Ok env.
Proof.
  intros H ND R. unfold bind_args. replace (negb (lv_kwargs l) && existsb (fun kv => negb (is_param l (fst kv))) kw) with false.
  - assert (R' : forall p d, In (p, d) (lv_params l) -> dget String.eqb kw p <> None \/ d <> None).
    { intros p d I. specialize (R p). unfold bound, default_of in R. rewrite (proj2 (dget_In_NoDup String.eqb String.eqb_eq _ _ _ ND) I) in R. destruct (dget String.eqb kw p); [left; discriminate|]. right. apply R. apply param_In. apply (in_map fst) in I. exact I. }
    clear R H ND. induction (lv_params l) as [|[p d] t IH]; cbn [mapM fst snd]; [eauto|]. destruct IH as [env E]; [intros q e I; apply R'; right; exact I|].
    destruct (dget String.eqb kw p) as [v|] eqn:D; [|destruct d as [v|]; [|destruct (R' p None (or_introl eq_refl)); congruence]]; cbn [bind]; rewrite E; cbn [bind]; eauto.
  - symmetry. destruct (lv_kwargs l) eqn:K; [reflexivity|]. cbn [negb andb]. destruct (existsb _ kw) eqn:X; [|reflexivity]. apply existsb_exists in X. destruct X as ([k v] & I & P). cbn [fst] in P. apply negb_true_iff in P.
    specialize (H eq_refl k P). apply dget_none_key in H. apply (in_map fst) in I. contradiction.
Qed.

Lemma super_args_total l env kw :
  (lv_kwargs l = true -> forall k, dmem String.eqb (lv_super l) k = true -> is_param l k = false -> dget String.eqb kw k = None) ->
  exists kw', super_args l env kw = Ok kw'.
Proof.
  intros H. unfold super_args. destruct (lv_kwargs l) eqn:K; [|eauto]. destruct (existsb _ _) eqn:X; [|eauto]. exfalso.
  apply existsb_exists in X. destruct X as ([k v] & I & D). apply filter_In in I. destruct I as (I & P). cbn [fst] in *. apply negb_true_iff in P.
  unfold dmem in D. rewrite (dget_map_snd (eval env)) in D. assert (N : dget String.eqb kw k = None). { apply H; auto. unfold dmem. destruct (dget String.eqb (lv_super l) k); [reflexivity|discriminate]. }
  apply dget_none_key in N. apply (in_map fst) in I. contradiction.
Qed.

Lemma make_alike dn c : tidy c = true -> name_ok c -> forall kw kw' m, alike dn c kw kw' -> make c kw = Ok m ->
  exists m', make c kw' = Ok m' /\ (forall k, k <> "name" -> dget String.eqb m k = dget String.eqb m' k) /\
             option_map (filled dn) (dget String.eqb m "name") = option_map (filled dn) (dget String.eqb m' "name").
Proof.
  induction c as [|l b IH]; intros T NO kw kw' m (A1 & A2) E.
  - cbn in E. injection E as <-. exists kw'. split; [reflexivity|]. split.
    + intros k K. destruct (A1 k K) as [Q|(j & Q & _)]; [exact Q|discriminate].
    + unfold named in A2. cbn [default] in A2. destruct (dget String.eqb kw "name"), (dget String.eqb kw' "name"); exact A2.
  - apply make_sub in E. destruct E as (env & kws & B & C & S & M). destruct (bind_args_ok _ _ _ B) as (B1 & B2 & B3). destruct (super_args_ok _ _ _ _ S) as (S1 & S2).
    cbn [tidy] in T. apply andb_prop in T. destruct T as [T T4]. apply andb_prop in T. destruct T as [T T3]. apply andb_prop in T. destruct T as [T1 T2].
    apply nodupb_NoDup in T1. rewrite forallb_forall in T3.
    assert (BN : forall p, p <> "name" -> is_param l p = true -> bound l kw p = bound l kw' p).
    { intros p PN P. unfold bound. destruct (A1 p PN) as [->|(j & D & Q1 & Q2)]; [reflexivity|]. cbn [default] in D. rewrite P in D. rewrite D. destruct Q1 as [->| ->], Q2 as [->| ->]; reflexivity. }
    assert (NB : is_param l "name" = true -> option_map (filled dn) (bound l kw "name") = option_map (filled dn) (bound l kw' "name")).
    { intros P. unfold named in A2. cbn [default] in A2. rewrite P in A2. exact A2. }
    assert (X1 : lv_kwargs l = false -> forall k, is_param l k = false -> dget String.eqb kw' k = None).
    { intros K k P. assert (D : default (Sub l b) k = None) by (cbn [default]; rewrite P, K; reflexivity). destruct (String.eqb k "name") eqn:KN.
      - apply seqb_true in KN. subst k. unfold named in A2. rewrite D in A2. rewrite (B1 K _ P) in A2. destruct (dget String.eqb kw' "name"); [discriminate|reflexivity].
      - apply String.eqb_neq in KN. destruct (A1 k KN) as [Q|(j & Q & _)]; [rewrite <- Q; auto|congruence]. }
    assert (X2 : exists env', bind_args l kw' = Ok env').
    { apply bind_args_total; auto. intros p P. destruct (String.eqb p "name") eqn:KN.
      - apply seqb_true in KN. subst p. specialize (NB P). destruct (B2 _ P) as (_ & Q). destruct (bound l kw "name"); [|congruence]. destruct (bound l kw' "name"); [discriminate|discriminate].
      - apply String.eqb_neq in KN. rewrite <- (BN p KN P). apply B2. exact P. }
    destruct X2 as (env' & B'). destruct (bind_args_ok _ _ _ B') as (_ & B2' & B3').
    assert (UN : unnamed env = unnamed env').
    { rewrite (bind_args_list _ _ _ B), (bind_args_list _ _ _ B'). assert (V : forall pd, In pd (lv_params l) -> fst pd <> "name" -> value kw pd = value kw' pd).
      { intros [p d] I PN. cbn [fst] in PN. assert (P : is_param l p = true) by (apply param_In; apply (in_map fst) in I; exact I). assert (Q := BN p PN P).
        unfold bound, default_of in Q. rewrite (proj2 (dget_In_NoDup String.eqb String.eqb_eq _ _ _ T1) I) in Q. unfold value. cbn [fst snd].
        destruct (dget String.eqb kw p), (dget String.eqb kw' p); try destruct d; congruence. }
      unfold unnamed. clear -V. induction (lv_params l) as [|pd t IH]; [reflexivity|]. cbn [map filter fst]. rewrite IH; [|intros q I; apply V; right; exact I].
      destruct (String.eqb (fst pd) "name") eqn:KN; cbn [negb]; [reflexivity|]. apply String.eqb_neq in KN. rewrite (V pd (or_introl eq_refl) KN). reflexivity. }
    assert (X3 : exists kws', super_args l env' kw' = Ok kws').
    { apply super_args_total. intros K k D P. assert (DF : default (Sub l b) k = None) by (cbn [default]; rewrite P, K, D; reflexivity). destruct (String.eqb k "name") eqn:KN.
      - apply seqb_true in KN. subst k. unfold named in A2. rewrite DF in A2. rewrite (S2 K _ D P) in A2. destruct (dget String.eqb kw' "name"); [discriminate|reflexivity].
      - apply String.eqb_neq in KN. destruct (A1 k KN) as [Q|(j & Q & _)]; [rewrite <- Q; auto|congruence]. }
    destruct X3 as (kws' & S'). destruct (super_args_ok _ _ _ _ S') as (S1' & _).
    assert (EV : forall k e, k <> "name" -> In (k, e) (lv_super l) -> eval env e = eval env' e).
    { intros k e KN I. specialize (T3 _ I). unfold quiet in T3. cbn [fst snd] in T3. destruct e as [p|v|f|f]; cbn [eval]; [|reflexivity|rewrite UN; reflexivity|discriminate].
      apply orb_true_iff in T3. destruct T3 as [T3|T3]; [|apply seqb_true in T3; contradiction]. apply negb_true_iff, String.eqb_neq in T3.
      destruct (is_param l p) eqn:P; [|rewrite (B3 p P), (B3' p P); reflexivity]. rewrite (proj1 (B2 p P)), (proj1 (B2' p P)), (BN p T3 P). reflexivity. }
    destruct (IH T4) with (kw := kws) (kw' := kws') (m := m) as (m' & M' & H).
    + destruct NO as [NO|(w & NO)]; cbn [carried unset] in NO.
      * destruct (dget String.eqb (lv_super l) "name") as [[p| | |]|]; try discriminate; apply andb_prop in NO; left; apply NO.
      * destruct (is_param l "name"); [discriminate|]. destruct (dget String.eqb (lv_super l) "name") as [[p| | |]|]; try discriminate.
        -- destruct (carried b "name") eqn:CB; [left; exact CB|discriminate].
        -- destruct (lv_kwargs l); [right; eauto|]. destruct (carried b "name") eqn:CB; [left; exact CB|right; eauto].
    + split.
      * intros k KN. rewrite S1, S1'. destruct (dget String.eqb (lv_super l) k) as [e|] eqn:D; [left; rewrite (EV k e KN (dget_some_In _ _ _ D)); reflexivity|].
        unfold extra. destruct (lv_kwargs l && negb (is_param l k)) eqn:K; [|left; reflexivity]. apply andb_prop in K. destruct K as [K P]. apply negb_true_iff in P.
        destruct (A1 k KN) as [Q|(j & Q & Q1 & Q2)]; [left; exact Q|right]. exists j. cbn [default] in Q. rewrite P, K in Q. unfold dmem in Q. rewrite D in Q. cbn [negb andb] in Q. auto.
      * unfold named. rewrite S1, S1'. destruct NO as [NO|(w & NO)]; cbn [carried unset] in NO.
        -- destruct (dget String.eqb (lv_super l) "name") as [[p| | |]|] eqn:D; try discriminate.
           ++ apply andb_prop in NO. destruct NO as [NO _]. apply andb_prop in NO. destruct NO as [N1 N2]. apply seqb_true in N1. subst p. cbn [eval]. rewrite (proj1 (B2 _ N2)), (proj1 (B2' _ N2)). specialize (NB N2).
              destruct (B2 _ N2) as (_ & Z). destruct (B2' _ N2) as (_ & Z'). destruct (bound l kw "name"); [|congruence]. destruct (bound l kw' "name"); [|congruence]. exact NB.
           ++ apply andb_prop in NO. destruct NO as [NO _]. apply andb_prop in NO. destruct NO as [N1 N2]. unfold extra. rewrite N1, N2. cbn [andb].
              unfold named in A2. cbn [default] in A2. apply negb_true_iff in N2. rewrite N1, N2 in A2. unfold dmem in A2. rewrite D in A2. cbn [negb andb] in A2. exact A2.
        -- destruct (is_param l "name") eqn:P; [discriminate|]. destruct (dget String.eqb (lv_super l) "name") as [[p| | |]|] eqn:D; try discriminate; [cbn [eval]; reflexivity|].
           unfold extra. rewrite P. destruct (lv_kwargs l) eqn:K; [|reflexivity]. cbn [andb negb]. unfold named in A2. cbn [default] in A2. rewrite P, K in A2. unfold dmem in A2. rewrite D in A2. cbn [negb andb] in A2. exact A2.
    + exact M.
    + exists m'. split; [|exact H]. cbn [make]. rewrite B'. cbn [bind]. rewrite <- UN, C. cbn [bind]. rewrite S'. cbn [bind]. exact M'.
Qed.

Lemma NoDup_filter_keys {A} (f : string * A -> bool) (d : list (string * A)) : NoDup (map fst d) -> NoDup (map fst (filter f d)).
Proof.
  induction d as [|kv t IH]; cbn [map filter]; [auto|]. intros ND. inversion ND as [|? ? N ND']. subst. destruct (f kv); cbn [map]; [|auto]. constructor; [|auto].
  intros I. apply N. apply in_map_iff in I. destruct I as (x & <- & I). apply filter_In in I. apply in_map. apply I.
Qed.

Lemma NoDup_app_keys (l1 l2 : list string) : NoDup l1 -> NoDup l2 -> (forall k, In k l1 -> ~ In k l2) -> NoDup (l1 ++ l2).
Proof.
  induction l1 as [|x t IH]; cbn [app]; [auto|]. intros N1 N2 D. inversion N1 as [|? ? N N1']. subst. constructor.
  - rewrite in_app_iff. intros [I|I]; [auto|]. exact (D x (or_introl eq_refl) I).
  - apply IH; auto. intros k I. apply D. right. exact I.
Qed.

Lemma make_NoDup c : tidy c = true -> forall kw m, NoDup (map fst kw) -> make c kw = Ok m -> NoDup (map fst m).
Proof.
  induction c as [|l b IH]; intros T kw m ND E.
  - cbn in E. injection E as <-. exact ND.
  - apply make_sub in E. destruct E as (env & kws & _ & _ & S & M). cbn [tidy] in T. apply andb_prop in T. destruct T as [T T4]. apply andb_prop in T. destruct T as [T T3]. apply andb_prop in T. destruct T as [T1 T2]. apply nodupb_NoDup in T2.
    apply (IH T4 kws m); [|exact M]. destruct (super_args_ok _ _ _ _ S) as (_ & S2). unfold super_args in S.
    assert (G : map fst (map (fun ke : string * expr => (fst ke, eval env (snd ke))) (lv_super l)) = map fst (lv_super l)) by (rewrite map_map; reflexivity).
    destruct (lv_kwargs l).
    + destruct (existsb _ _); [discriminate|]. injection S as <-. rewrite map_app. apply NoDup_app_keys; [rewrite G; exact T2|apply NoDup_filter_keys; exact ND|].
      intros k I J. rewrite G in I. apply in_map_iff in J. destruct J as ([k' v] & Q & J). cbn [fst] in Q. subst k'. apply filter_In in J. destruct J as (J & P). cbn [fst] in P. apply negb_true_iff in P.
      assert (N : dget String.eqb kw k = None) by (apply S2; auto; apply dmem_key; exact I). apply dget_none_key in N. apply (in_map fst) in J. contradiction.
    + injection S as <-. rewrite G. exact T2.
Qed.

Lemma fill_name_NoDup dn s : NoDup (map fst s) -> NoDup (map fst (fill_name dn s)).
Proof.
  intros ND. unfold fill_name. destruct (dget String.eqb s "name") as [v|]; [|exact ND]. destruct dn as [d|]; [|exact ND]. destruct (_ && _); [|exact ND].
  apply (dset_NoDup String.eqb String.eqb_eq). exact ND.
Qed.

Lemma del_get (s : settings) k x : NoDup (map fst s) -> dget String.eqb (ddel String.eqb s k) x = if String.eqb k x then None else dget String.eqb s x.
Proof.
  induction s as [|[k' v] t IH]; cbn [ddel map fst]; intros ND; [destruct (String.eqb k x); reflexivity|]. inversion ND as [|? ? N ND']. subst.
  destruct (String.eqb k k') eqn:K.
  - apply seqb_true in K. subst k'. destruct (String.eqb k x) eqn:X; [apply seqb_true in X; subst; apply dget_none_key; exact N|]. cbn [dget]. rewrite String.eqb_sym in X. rewrite X. reflexivity.
  - cbn [dget]. destruct (String.eqb x k') eqn:X; [apply seqb_true in X; subst; rewrite K; reflexivity|]. apply IH. exact ND'.
Qed.

Lemma memb_key k l : memb String.eqb k l = true <-> In k l. Proof. apply (memb_In String.eqb String.eqb_eq). Qed.

Lemma memb_app k l1 l2 : memb String.eqb k (l1 ++ l2) = memb String.eqb k l1 || memb String.eqb k l2.
Proof. induction l1 as [|x t IH]; cbn [memb app orb]; [reflexivity|]. rewrite IH. apply orb_assoc. Qed.

Definition kept (ns als : list string) (s : settings) (k : string) : option json :=
  if memb String.eqb k ns && is_null (dget String.eqb s k) || memb String.eqb k als then None else dget String.eqb s k.

Lemma drop_nones ks : NoDup ks -> forall s, NoDup (map fst s) -> (forall k, In k ks -> dget String.eqb s k <> None) ->
  exists s', foldM drop_none ks s = Ok s' /\ NoDup (map fst s') /\ forall k, dget String.eqb s' k = kept ks [] s k.
Proof.
  induction ks as [|k0 ks IH]; intros NK s ND H; cbn [foldM].
  - exists s. split; [reflexivity|]. split; [exact ND|]. intros k. reflexivity.
  - inversion NK as [|? ? N NK']. subst. unfold drop_none at 1. destruct (dget String.eqb s k0) as [v|] eqn:D; [|exfalso; exact (H k0 (or_introl eq_refl) D)].
    assert (MK : memb String.eqb k0 ks = false) by (destruct (memb String.eqb k0 ks) eqn:Q; [apply memb_key in Q; contradiction|reflexivity]).
    assert (C : v = JNull \/ is_null (Some v) = false) by (destruct v; auto).
    destruct C as [->|C].
    + cbn [bind]. destruct (IH NK' (ddel String.eqb s k0)) as (s' & E & ND' & G).
      * apply (ddel_NoDup String.eqb String.eqb_eq). exact ND.
      * intros k I. rewrite (del_get s k0 k ND). destruct (String.eqb k0 k) eqn:Q; [apply seqb_true in Q; subst; contradiction|]. apply H. right. exact I.
      * exists s'. split; [exact E|]. split; [exact ND'|]. intros k. rewrite G. unfold kept. rewrite !(del_get s k0 k ND). cbn [memb existsb]. rewrite !orb_false_r.
        destruct (String.eqb k0 k) eqn:Q.
        -- apply seqb_true in Q. subst k. rewrite D. cbn [memb]. rewrite String.eqb_refl. cbn [orb andb is_null]. rewrite andb_false_r. reflexivity.
        -- rewrite (String.eqb_sym k k0), Q. cbn [orb]. reflexivity.
    + destruct (IH NK' s ND) as (s' & E & ND' & G); [intros k I; apply H; right; exact I|]. exists s'. split; [destruct v; [discriminate|exact E..]|]. split; [exact ND'|]. intros k. rewrite G. unfold kept. cbn [memb existsb]. rewrite !orb_false_r.
      destruct (String.eqb k k0) eqn:Q; [|reflexivity]. apply seqb_true in Q. subst k. rewrite D, C. rewrite !andb_false_r. reflexivity.
Qed.

Lemma get_config_ok c s : NoDup (none_keys c ++ always_keys c) -> NoDup (map fst s) ->
  (forall k, In k (none_keys c ++ always_keys c) -> dget String.eqb s k <> None) ->
  exists s', get_config c s = Ok s' /\ NoDup (map fst s') /\ forall k, dget String.eqb s' k = kept (none_keys c) (always_keys c) s k.
Proof.
  unfold get_config, none_keys, always_keys. generalize (mc_config c) as steps. intros steps. revert s.
  induction steps as [|st steps IH]; intros s NK ND H; cbn [foldM flat_map] in *.
  - exists s. split; [reflexivity|]. split; [exact ND|]. intros k. reflexivity.
  - set (ns := flat_map (fun s => match s with DropNone ks => ks | DropKey _ => [] end) steps) in *. set (als := flat_map (fun s => match s with DropNone _ => [] | DropKey k => [k] end) steps) in *.
    destruct st as [ks|k0]; cbn [app] in *.
    + rewrite <- app_assoc in NK. assert (N1 : NoDup ks) by (clear -NK; induction ks as [|x t IH]; [constructor|]; inversion NK as [|? ? N NK']; subst; constructor; [intros I; apply N; apply in_or_app; left; exact I|auto]).
      assert (N2 : NoDup (ns ++ als)) by (clear -NK; induction ks as [|x t IH]; [exact NK|]; inversion NK; auto).
      assert (N3 : forall k, In k ks -> ~ In k (ns ++ als)). { clear -NK. induction ks as [|x t IH]; [intros ? []|]. inversion NK as [|? ? N NK']. subst. intros k [<-|I] J; [apply N; apply in_or_app; right; exact J|exact (IH NK' k I J)]. }
      destruct (drop_nones ks N1 s ND) as (s1 & E1 & ND1 & G1); [intros k I; apply H; rewrite <- app_assoc; apply in_or_app; left; exact I|]. rewrite E1. cbn [bind].
      destruct (IH s1 N2 ND1) as (s' & E & ND' & G).
      * intros k I. rewrite G1. unfold kept. cbn [memb existsb]. rewrite orb_false_r. destruct (memb String.eqb k ks) eqn:M; [apply memb_key in M; destruct (N3 k M I)|]. cbn [andb]. apply H. rewrite <- app_assoc. apply in_or_app. right. exact I.
      * exists s'. split; [exact E|]. split; [exact ND'|]. intros k. rewrite G. unfold kept. rewrite !G1. unfold kept. cbn [memb existsb]. rewrite !orb_false_r.
        replace (memb String.eqb k (ks ++ ns)) with (memb String.eqb k ks || memb String.eqb k ns) by (symmetry; apply memb_app).
        destruct (memb String.eqb k ks) eqn:M; cbn [andb orb].
        -- apply memb_key in M. assert (Q : memb String.eqb k ns = false) by (destruct (memb String.eqb k ns) eqn:Q; [apply memb_key in Q; destruct (N3 k M); apply in_or_app; left; exact Q|reflexivity]).
           rewrite Q. cbn [andb orb]. destruct (is_null (dget String.eqb s k)); cbn [orb]; [destruct (memb String.eqb k als); reflexivity|reflexivity].
        -- reflexivity.
    + assert (NI : ~ In k0 (ns ++ als) /\ NoDup (ns ++ als)). { apply NoDup_remove in NK. tauto. } destruct NI as (NI & N2).
      unfold drop_key at 1. assert (D : dget String.eqb s k0 <> None) by (apply H; apply in_or_app; right; left; reflexivity). unfold dmem. destruct (dget String.eqb s k0) as [v|] eqn:D0; [|congruence]. cbn [bind].
      destruct (IH (ddel String.eqb s k0) N2) as (s' & E & ND' & G).
      * apply (ddel_NoDup String.eqb String.eqb_eq). exact ND.
      * intros k I. rewrite (del_get s k0 k ND). destruct (String.eqb k0 k) eqn:Q; [apply seqb_true in Q; subst; contradiction|]. apply H. apply in_app_iff in I. apply in_or_app. destruct I as [I|I]; [left; exact I|right; right; exact I].
      * exists s'. split; [exact E|]. split; [exact ND'|]. intros k. rewrite G. unfold kept. rewrite !(del_get s k0 k ND). cbn [memb existsb].
        destruct (String.eqb k0 k) eqn:Q.
        -- apply seqb_true in Q. subst k. cbn [memb existsb]. rewrite String.eqb_refl. cbn [orb]. rewrite orb_true_r. destruct (_ || _); reflexivity.
        -- rewrite (String.eqb_sym k k0), Q. cbn [orb]. reflexivity.
Qed.

Lemma not_passed c k : ~ In k (passed c) -> forall kw m, make c kw = Ok m -> dget String.eqb kw k = None -> dget String.eqb m k = None.
Proof.
  induction c as [|l b IH]; intros N kw m E D.
  - cbn in E. injection E as <-. exact D.
  - apply make_sub in E. destruct E as (env & kws & _ & _ & S & M). destruct (super_args_ok _ _ _ _ S) as (S1 & _). cbn [passed] in N. rewrite in_app_iff in N.
    apply (IH (fun I => N (or_intror I)) kws m M). rewrite S1. replace (dget String.eqb (lv_super l) k) with (@None expr) by (symmetry; apply dget_none_key; tauto). unfold extra. rewrite D. destruct (_ && _); reflexivity.
Qed.

Lemma not_memb k l : negb (memb String.eqb k l) = true -> ~ In k l.
Proof. intros H I. apply memb_key in I. rewrite I in H. discriminate. Qed.

Lemma good_back c kw m : good c = true -> NoDup (map fst kw) -> ~ In "fn" (map fst kw) -> ~ In "preprocessors" (map fst kw) -> construct c kw = Ok m ->
  exists config, get_config c m = Ok config /\
    forall config', NoDup (map fst config') -> (forall k, dget String.eqb config' k = dget String.eqb config k) ->
      exists m', from_config c config' = Ok m' /\ forall k, dget String.eqb m' k = dget String.eqb m k.
Proof.
  intros G ND NF NP E. unfold construct in E. apply bind_ok in E. destruct E as (s & E & Q). injection Q as <-.
  unfold good in G. apply andb_prop in G. destruct G as [G G6]. apply andb_prop in G. destruct G as [G G5]. apply andb_prop in G. destruct G as [G G4]. apply andb_prop in G. destruct G as [G G3]. apply andb_prop in G. destruct G as [G1 G2].
  apply nodupb_NoDup in G2. apply not_memb in G3. apply not_memb in G4. apply not_memb in G5. rewrite forallb_forall in G6.
  set (c0 := mc_ctor c) in *. set (m := fill_name (mc_default c) s).
  assert (GK : forall k, good_key c k = true).
  { intros k. destruct (in_dec string_dec k ("name" :: none_keys c ++ always_keys c ++ mentioned c0)) as [I|I]; [exact (G6 k I)|].
    cbn [In] in I. rewrite !in_app_iff in I. unfold good_key. fold c0. assert (K1 : memb String.eqb k (none_keys c) = false) by (destruct (memb String.eqb k (none_keys c)) eqn:Q; [apply memb_key in Q; tauto|reflexivity]).
    assert (K2 : memb String.eqb k (always_keys c) = false) by (destruct (memb String.eqb k (always_keys c)) eqn:Q; [apply memb_key in Q; tauto|reflexivity]). rewrite K1, K2. cbn [negb andb orb].
    destruct (String.eqb k "preprocessors"); [reflexivity|]. destruct (not_mentioned c0 k) as (_ & [->| ->]); [tauto|reflexivity|]. destruct (carried c0 k); reflexivity. }
  assert (NDm : NoDup (map fst m)) by (apply fill_name_NoDup; exact (make_NoDup c0 G1 kw s ND E)).
  assert (NKP : dget String.eqb kw "preprocessors" = None) by (apply dget_none_key; exact NP).
  assert (NPR : dget String.eqb s "preprocessors" = None) by (apply (not_passed c0 _ G4 kw s E NKP)).
  assert (NFN : dget String.eqb s "fn" = None) by (apply (not_passed c0 "fn" (fun I => G3 (in_or_app _ _ _ (or_introl I))) kw s E); apply dget_none_key; exact NF).
  assert (MG : forall k, k <> "name" -> dget String.eqb m k = dget String.eqb s k) by (intros k K; unfold m; rewrite fill_name_get, (seqb_neq _ _ K); reflexivity).
  destruct (get_config_ok c m G2 NDm) as (cfg & EC & NDC & GC).
  { intros k I. assert (KN : k <> "name") by (intros ->; exact (G5 I)). rewrite (MG k KN). assert (H := GK k). unfold good_key in H. fold c0 in H.
    destruct (String.eqb k "preprocessors") eqn:KP.
    - exfalso. apply andb_prop in H. destruct H as [H1 H2]. apply not_memb in H1. apply not_memb in H2. apply in_app_iff in I. tauto.
    - destruct (carried c0 k) eqn:C.
      + apply andb_prop in H. destruct H as [H1 H2]. apply not_memb in H2. apply in_app_iff in I. destruct I as [I|I]; [|contradiction]. apply memb_key in I. rewrite I in H1. cbn [negb orb] in H1.
        rewrite (carried_arrives c0 k C kw s E). destruct (dget String.eqb kw k); [discriminate|]. destruct (default c0 k); [discriminate|discriminate].
      + destruct (unset c0 k) as [[v|]|] eqn:U; [|exfalso|discriminate].
        * rewrite (proj2 (unset_arrives c0 k _ U kw s E)). discriminate.
        * apply andb_prop in H. destruct H as [H1 H2]. apply not_memb in H1. apply not_memb in H2. apply in_app_iff in I. tauto. }
  exists cfg. split; [exact EC|]. intros cfg' ND' SAME. unfold from_config.
  assert (FN : forall k, dget String.eqb (ddel String.eqb cfg' "fn") k = dget String.eqb cfg' k).
  { intros k. rewrite (del_get cfg' "fn" k ND'). destruct (String.eqb "fn" k) eqn:Q; [|reflexivity]. apply seqb_true in Q. subst k. rewrite SAME, GC. unfold kept. rewrite (MG "fn"); [|discriminate]. rewrite NFN. cbn [is_null]. rewrite andb_false_r. cbn [orb]. destruct (memb String.eqb "fn" (always_keys c)); reflexivity. }
  set (kw' := ddel String.eqb cfg' "fn") in *.
  assert (KW : forall k, dget String.eqb kw' k = kept (none_keys c) (always_keys c) m k) by (intros k; rewrite FN, SAME; apply GC).
  destruct (make_alike (mc_default c) c0 G1) with (kw := kw) (kw' := kw') (m := s) as (s' & E' & H1 & H2).
  - assert (H := GK "name"). unfold good_key in H. fold c0 in H. change (String.eqb "name" "preprocessors") with false in H. cbv iota in H. unfold name_ok. destruct (carried c0 "name"); [left; reflexivity|]. destruct (unset c0 "name") as [w|]; [right; eauto|]. discriminate.
  - split.
    + intros k KN. rewrite KW. unfold kept. rewrite (MG k KN). assert (H := GK k). unfold good_key in H. fold c0 in H. destruct (String.eqb k "preprocessors") eqn:KP.
      * apply seqb_true in KP. subst k. left. rewrite NKP, NPR. destruct (_ || _); reflexivity.
      * destruct (carried c0 k) eqn:C.
        -- apply andb_prop in H. destruct H as [Q1 Q2]. apply negb_true_iff in Q2. rewrite Q2, orb_false_r. rewrite (carried_arrives c0 k C kw s E).
           destruct (memb String.eqb k (none_keys c)) eqn:MK; cbn [andb].
           ++ cbn [negb orb] in Q1. destruct (default c0 k) as [[]|] eqn:D; try discriminate. destruct (dget String.eqb kw k) as [v|]; [|right; exists JNull; cbn [is_null]; auto].
              destruct (is_null (Some v)) eqn:IN; [|left; reflexivity]. right. exists JNull. destruct v; try discriminate. auto.
           ++ destruct (dget String.eqb kw k) as [v|]; [left; reflexivity|]. destruct (default c0 k) as [j|] eqn:D; [right; exists j; auto|left; reflexivity].
        -- destruct (unset c0 k) as [w|] eqn:U; [|discriminate]. destruct (unset_arrives c0 k _ U kw s E) as (U1 & U2). rewrite U1, U2. left. destruct w as [v|].
           ++ apply orb_true_iff in H. destruct H as [H|H].
              ** apply andb_prop in H. destruct H as [H _]. rewrite H. rewrite orb_true_r. reflexivity.
              ** apply andb_prop in H. destruct H as [H Q3]. apply andb_prop in H. destruct H as [Q1 _]. rewrite Q1, Q3. reflexivity.
           ++ destruct (_ || _); reflexivity.
    + unfold named. rewrite KW. unfold kept. assert (MN1 : memb String.eqb "name" (none_keys c) = false) by (destruct (memb String.eqb "name" (none_keys c)) eqn:Q; [apply memb_key in Q; exfalso; apply G5; apply in_or_app; left; exact Q|reflexivity]).
      assert (MN2 : memb String.eqb "name" (always_keys c) = false) by (destruct (memb String.eqb "name" (always_keys c)) eqn:Q; [apply memb_key in Q; exfalso; apply G5; apply in_or_app; right; exact Q|reflexivity]). rewrite MN1, MN2. cbn [andb orb].
      unfold m. rewrite fill_name_get. change (String.eqb "name" "name") with true. cbv iota. assert (H := GK "name"). unfold good_key in H. fold c0 in H. change (String.eqb "name" "preprocessors") with false in H. cbv iota in H.
      destruct (carried c0 "name") eqn:C.
      * rewrite (carried_arrives c0 "name" C kw s E). destruct (dget String.eqb kw "name") as [v|]; cbn [option_map]; [rewrite filled_twice; reflexivity|]. destruct (default c0 "name"); cbn [option_map]; [rewrite filled_twice; reflexivity|reflexivity].
      * destruct (unset c0 "name") as [w|] eqn:U; [|discriminate]. destruct (unset_arrives c0 _ _ U kw s E) as (U1 & U2). rewrite U1, U2. rewrite MN1, MN2 in H. destruct w as [v|]; [discriminate|]. reflexivity.
  - exact E.
  - exists (fill_name (mc_default c) s'). unfold construct. fold c0. rewrite E'. split; [reflexivity|]. intros k. unfold m. rewrite !fill_name_get. destruct (String.eqb k "name") eqn:KN.
    + apply seqb_true in KN. subst k. symmetry. exact H2.
    + apply String.eqb_neq in KN. symmetry. apply H1. exact KN.
Qed.

(** Constructors that compute the name when there is none: the config has the computed one. *)

Definition or_level (params : list (string * option json)) (f : settings -> json) : level :=
  Level params false unchecked (map (fun pd => (fst pd, if String.eqb (fst pd) "name" then NameOr f else Arg (fst pd))) params).

Lemma or_get (params : list (string * option json)) f k : dget String.eqb (lv_super (or_level params f)) k =
  if memb String.eqb k (map fst params) then Some (if String.eqb k "name" then NameOr f else Arg k) else None.
Proof.
  unfold or_level. cbn [lv_super]. induction params as [|[a b] t IH]; cbn [map dget memb fst]; [reflexivity|].
  destruct (String.eqb k a) eqn:Q; cbn [orb].
  - apply seqb_true in Q. subst. reflexivity.
  - exact IH.
Qed.

Lemma unnamed_alike ps kw kw' : (forall p d, In (p, d) ps -> p <> "name" -> value kw (p, d) = value kw' (p, d)) ->
  unnamed (map (fun pd => (fst pd, value kw pd)) ps) = unnamed (map (fun pd => (fst pd, value kw' pd)) ps).
Proof.
  intros H. unfold unnamed. induction ps as [|[p d] t IH]; [reflexivity|]. cbn [map filter fst]. rewrite IH by (intros q e I; apply H; right; exact I).
  destruct (String.eqb p "name") eqn:Q; cbn [negb]; [reflexivity|]. apply String.eqb_neq in Q. rewrite (H p d (or_introl eq_refl) Q). reflexivity.
Qed.

Lemma or_back params f kw m : NoDup (map fst params) -> make (Sub (or_level params f) Root) kw = Ok m ->
  forall kw', (forall k, dget String.eqb kw' k = dget String.eqb m k) ->
  exists m', make (Sub (or_level params f) Root) kw' = Ok m' /\ forall k, dget String.eqb m' k = dget String.eqb m k.
Proof.
  intros ND E kw' SAME. set (l := or_level params f) in *. apply make_sub in E. destruct E as (env & kws & B & _ & S & M). cbn [make] in M. injection M as ->.
  destruct (bind_args_ok _ _ _ B) as (B1 & B2 & B3). destruct (super_args_ok _ _ _ _ S) as (S1 & _).
  assert (X : forall (e s kw0 : settings), super_args l e kw0 = Ok s -> forall k, dget String.eqb s k = if is_param l k then Some (if String.eqb k "name" then eval e (NameOr f) else eval e (Arg k)) else None).
  { intros e s kw0 S0 k. destruct (super_args_ok _ _ _ _ S0) as (Q & _). rewrite Q. unfold l at 1. rewrite or_get. unfold is_param, l. cbn [lv_params or_level]. destruct (memb _ _ _); [destruct (String.eqb k "name"); reflexivity|].
    unfold extra. reflexivity. }
  assert (MG := X _ _ _ S).
  destruct (bind_args_total l kw') as (env' & B').
  - intros _ k P. rewrite SAME, MG, P. reflexivity.
  - exact ND.
  - intros p P. unfold bound. rewrite SAME, MG, P. discriminate.
  - destruct (super_args_total l env' kw') as (m' & S'); [intros Q; discriminate|]. exists m'. split.
    + cbn [make]. rewrite B'. cbn [bind]. unfold l at 1. cbn [lv_check or_level unchecked bind]. rewrite S'. reflexivity.
    + destruct (bind_args_ok _ _ _ B') as (_ & B2' & _). assert (U : unnamed env' = unnamed env).
      { rewrite (bind_args_list _ _ _ B), (bind_args_list _ _ _ B'). symmetry. apply unnamed_alike. intros p d I PN.
        assert (P : is_param l p = true) by (apply param_In; apply (in_map fst) in I; exact I). unfold value at 2. cbn [fst snd]. rewrite SAME, MG, P, (seqb_neq _ _ PN). cbn [eval].
        destruct (B2 p P) as (Q & _). rewrite (bind_args_list _ _ _ B). assert (NE : NoDup (map fst (map (fun pd => (fst pd, value kw pd)) (lv_params l)))) by (rewrite map_map; cbn [fst]; exact ND).
        rewrite (proj2 (dget_In_NoDup String.eqb String.eqb_eq _ p (value kw (p, d)) NE)); [reflexivity|].
        apply (in_map (fun pd => (fst pd, value kw pd))) in I. exact I. }
      intros k. rewrite (X _ _ _ S' k), (MG k). destruct (is_param l k) eqn:P; [|reflexivity]. f_equal.
      assert (D : dget String.eqb env' k = dget String.eqb m k) by (destruct (B2' k P) as (Q & _); rewrite Q; unfold bound; rewrite SAME, MG, P; reflexivity).
      rewrite MG, P in D. destruct (String.eqb k "name") eqn:KN.
      * apply seqb_true in KN. subst k. cbn [eval] in *. rewrite D, U. destruct (truthy (match dget String.eqb env "name" with Some v => v | None => JNull end)) eqn:T; [rewrite T; reflexivity|]. destruct (truthy (f (unnamed env))); reflexivity.
      * cbn [eval] in *. rewrite D. reflexivity.
Qed.

(** A metric made from a config whose key its constructor does not know, or sets itself. *)

Lemma refused c l b k config : mc_ctor c = Sub l b -> lv_check l = unchecked -> is_param l k = false -> (lv_kwargs l = false \/ dmem String.eqb (lv_super l) k = true) ->
  NoDup (map fst config) -> k <> "fn" -> dget String.eqb config k <> None -> from_config c config = Err TypeError.
Proof.
  intros C U P K ND KF D. unfold from_config, construct. rewrite C. cbn [make].
  assert (D' : dget String.eqb (ddel String.eqb config "fn") k <> None) by (rewrite (del_get _ _ _ ND), seqb_neq by congruence; exact D).
  set (kw := ddel String.eqb config "fn") in *. destruct (bind_args l kw) as [env|e] eqn:B.
  - cbn [bind]. rewrite U. cbn [unchecked bind]. destruct (super_args l env kw) as [m|e] eqn:S.
    + exfalso. destruct (bind_args_ok _ _ _ B) as (B1 & _). destruct (super_args_ok _ _ _ _ S) as (_ & S2). destruct (lv_kwargs l) eqn:Q.
      * destruct K as [K|K]; [discriminate|]. exact (D' (S2 eq_refl k K P)).
      * exact (D' (B1 eq_refl k P)).
    + unfold super_args in S. destruct (lv_kwargs l); [|discriminate]. destruct (existsb _ _); [|discriminate]. injection S as <-. reflexivity.
  - cbn [bind]. unfold bind_args in B. destruct (_ && _); [injection B as <-; reflexivity|]. revert e B. induction (lv_params l) as [|[p d] t IH]; intros e B; cbn [mapM fst snd] in B; [discriminate|].
    destruct (dget String.eqb kw p); [|destruct d; [|injection B as <-; reflexivity]]; cbn [bind] in B; (destruct (mapM _ t) as [x|y] eqn:Q in B; [discriminate|]; cbn [bind] in B; injection B as <-; exact (IH _ Q)).
Qed.

(** The classes whose constructors pass settings on under other names than they take them. *)

Definition renaming : list string := ["Bleu"; "MaxRecall"; "BooleanFlipRates"; "ObjectDetectionMaxRecall"; "COCOAveragePrecision"; "BinaryAccuracy"].

Lemma memb_false k l : ~ In k l -> memb String.eqb k l = false.
Proof. intros N. destruct (memb String.eqb k l) eqn:Q; [apply memb_key in Q; contradiction|reflexivity]. Qed.

Lemma all_good : forallb (fun c => good c || memb String.eqb (mc_class c) ("Rouge" :: "Mean" :: renaming)) classes = true.
Proof. vm_compute. reflexivity. Qed.

Lemma or_round c params f kw m : mc_ctor c = Sub (or_level params f) Root -> mc_default c = None -> mc_config c = [] -> nodupb (map fst params) = true -> memb String.eqb "fn" (map fst params) = false ->
  construct c kw = Ok m -> exists config, get_config c m = Ok config /\
    forall config', NoDup (map fst config') -> (forall k, dget String.eqb config' k = dget String.eqb config k) ->
      exists m', from_config c config' = Ok m' /\ forall k, dget String.eqb m' k = dget String.eqb m k.
Proof.
  intros C D G ND NF E. unfold construct in E. rewrite C, D in E. apply bind_ok in E. destruct E as (s & E & Q). injection Q as <-.
  assert (FN : forall s, fill_name None s = s) by (intros s'; unfold fill_name; destruct (dget String.eqb s' "name"); reflexivity). rewrite FN.
  exists s. split; [unfold get_config; rewrite G; reflexivity|]. intros cfg ND' SAME. unfold from_config, construct. rewrite C, D.
  assert (N : dget String.eqb s "fn" = None).
  { apply make_sub in E. destruct E as (env & kws & B & _ & S & M). cbn [make] in M. injection M as ->. destruct (super_args_ok _ _ _ _ S) as (S1 & _). rewrite S1, or_get, NF. reflexivity. }
  destruct (or_back params f kw s (nodupb_NoDup _ ND) E (ddel String.eqb cfg "fn")) as (m' & E' & H).
  - intros k. rewrite (del_get _ _ _ ND'). destruct (String.eqb "fn" k) eqn:Q; [apply seqb_true in Q; subst k; symmetry; exact N|apply SAME].
  - exists m'. rewrite E'. cbn [bind]. rewrite FN. split; [reflexivity|exact H].
Qed.

Lemma C297_config_gives_metric_back_pf : forall c kw m, In c classes -> ~ In (mc_class c) renaming ->
  NoDup (map fst kw) -> ~ In "fn" (map fst kw) -> ~ In "preprocessors" (map fst kw) -> construct c kw = Ok m ->
  exists config, get_config c m = Ok config /\
    forall config', NoDup (map fst config') -> (forall k, dget String.eqb config' k = dget String.eqb config k) ->
      exists m', from_config c config' = Ok m' /\ forall k, dget String.eqb m' k = dget String.eqb m k.
Proof.
  intros c kw m I NR ND NF NP E. assert (G := all_good). rewrite forallb_forall in G. specialize (G c I). apply orb_true_iff in G. destruct G as [G|G].
  - exact (good_back c kw m G ND NF NP E).
  - apply memb_key in G. cbn [In] in G.
    assert (R : c = MetricClass "Rouge" i_Rouge None [] \/ c = MetricClass "Mean" i_Mean None []).
    { destruct G as [G|[G|G]]; [| |contradiction]; revert G.
      - clear - I. unfold classes in I. repeat (destruct I as [<-|I]; [try discriminate; auto|]). contradiction.
      - clear - I. unfold classes in I. repeat (destruct I as [<-|I]; [try discriminate; auto|]). contradiction. }
    destruct R as [-> | ->].
    + apply (or_round _ [("rouge_type", None); ("name", Some (JNull)); ("use_stemmer", Some (JBool false)); ("split_summaries", Some (JBool false)); ("tokenizer", Some (JNull))] rouge_type kw m); try reflexivity. exact E.
    + apply (or_round _ [("feature_key_path", None); ("example_weights_key_path", Some (JNull)); ("name", Some (JNull))] mean_name kw m); try reflexivity. exact E.
Qed.

(** Bleu passes use_effective_order on as effective_order, BooleanFlipRates flip_rate_name as
    symmetric_flip_rate_name, COCOAveragePrecision recalls as recall_thresholds, and MaxRecall and
    ObjectDetectionMaxRecall set thresholds themselves: none takes the config it gives, so that
    they fail wherever metrics are written to a config and read from it. *)

Definition find_class (n : string) : option metric_class := find (fun c => String.eqb (mc_class c) n) classes.

Lemma kept_key c kw m k v : tidy (mc_ctor c) = true -> nodupb (none_keys c ++ always_keys c) = true ->
  (forall q, In q (none_keys c ++ always_keys c) -> dget String.eqb m q <> None) ->
  NoDup (map fst kw) -> construct c kw = Ok m -> memb String.eqb k (always_keys c) = false -> dget String.eqb m k = Some v -> memb String.eqb k (none_keys c) = false \/ v <> JNull ->
  exists config, get_config c m = Ok config /\ NoDup (map fst config) /\ dget String.eqb config k <> None.
Proof.
  intros T N P ND E NA D V. apply nodupb_NoDup in N. assert (NM : NoDup (map fst m)).
  { unfold construct in E. apply bind_ok in E. destruct E as (s & E & Q). injection Q as <-. apply fill_name_NoDup. exact (make_NoDup _ T _ _ ND E). }
  destruct (get_config_ok c m N NM P) as (cfg & EC & NC & GC). exists cfg. split; [exact EC|]. split; [exact NC|]. rewrite GC. unfold kept. rewrite NA, D, orb_false_r.
  destruct V as [V|V]; [rewrite V; discriminate|]. destruct (memb String.eqb k (none_keys c)); [|discriminate]. destruct v; try (cbn; discriminate). congruence.
Qed.

Lemma construct_make c kw m : construct c kw = Ok m -> exists s, make (mc_ctor c) kw = Ok s /\ forall k, k <> "name" -> dget String.eqb m k = dget String.eqb s k.
Proof.
  intros E. unfold construct in E. apply bind_ok in E. destruct E as (s & E & Q). injection Q as <-. exists s. split; [exact E|]. intros k K. rewrite fill_name_get, (seqb_neq _ _ K). reflexivity.
Qed.

(** A key every metric of the class has. *)

Fixpoint surely (c : ctor) (k : string) (given : bool) : bool :=
  match c with
  | Root => given
  | Sub l b => surely b k (match dget String.eqb (lv_super l) k with Some _ => true | None => given && lv_kwargs l && negb (is_param l k) end)
  end.

Lemma surely_there c k : forall g kw s, surely c k g = true -> (g = true -> dget String.eqb kw k <> None) -> make c kw = Ok s -> dget String.eqb s k <> None.
Proof.
  induction c as [|l b IH]; intros g kw s H G E.
  - cbn in *. injection E as <-. auto.
  - apply make_sub in E. destruct E as (env & kws & _ & _ & S & M). destruct (super_args_ok _ _ _ _ S) as (S1 & _). cbn [surely] in H. apply (IH _ kws s H); [|exact M].
    intros Q. rewrite S1. destruct (dget String.eqb (lv_super l) k); [discriminate|]. apply andb_prop in Q. destruct Q as [Q Q3]. apply andb_prop in Q. destruct Q as [Q1 Q2]. unfold extra. rewrite Q2, Q3. auto.
Qed.

Definition refusing (c : metric_class) (k : string) : bool :=
  match mc_ctor c with
  | Root => false
  | Sub l b => tidy (mc_ctor c) && nodupb (none_keys c ++ always_keys c) && forallb (fun q => surely (mc_ctor c) q false) (none_keys c ++ always_keys c) &&
      negb (memb String.eqb k (always_keys c)) && negb (String.eqb k "fn") && negb (String.eqb k "name") && negb (memb String.eqb "name" (none_keys c ++ always_keys c)) &&
      negb (is_param l k) && (negb (lv_kwargs l) || dmem String.eqb (lv_super l) k)
  end.

Lemma refusing_refuses c k : refusing c k = true -> (forall l b, mc_ctor c = Sub l b -> lv_check l = unchecked) -> forall kw m v, NoDup (map fst kw) -> construct c kw = Ok m ->
  dget String.eqb m k = Some v -> memb String.eqb k (none_keys c) = false \/ v <> JNull ->
  exists config, get_config c m = Ok config /\ from_config c config = Err TypeError.
Proof.
  unfold refusing. destruct (mc_ctor c) as [|l b] eqn:C; [discriminate|]. intros H U kw m v ND E D V. rewrite <- C in H.
  repeat (apply andb_prop in H; let X := fresh "H" in destruct H as [H X]). rewrite forallb_forall in H6.
  destruct (kept_key c kw m k v) as (cfg & EC & NC & DC); auto.
  - intros q I. destruct (construct_make _ _ _ E) as (s & E' & SM). rewrite SM; [exact (surely_there _ _ _ kw s (H6 q I) (fun Q => match Bool.diff_false_true Q with end) E')|]. intros ->. apply not_memb in H2. contradiction.
  - apply negb_true_iff in H5. exact H5.
  - exists cfg. split; [exact EC|]. apply (refused c l b k cfg C (U _ _ eq_refl)); auto.
    + apply negb_true_iff in H1. exact H1.
    + apply orb_true_iff in H0. destruct H0 as [Q|Q]; [left; apply negb_true_iff in Q; exact Q|right; exact Q].
    + apply negb_true_iff in H4. apply String.eqb_neq in H4. exact H4.
Qed.

Lemma C298_config_is_not_taken_refuted_pf : exists cs,
  incl cs classes /\ map mc_class cs = ["Bleu"; "BooleanFlipRates"; "COCOAveragePrecision"; "MaxRecall"; "ObjectDetectionMaxRecall"] /\
  (forall c, In c cs -> exists m, construct c [] = Ok m) /\
  forall c kw m, In c cs -> NoDup (map fst kw) -> construct c kw = Ok m -> exists config, get_config c m = Ok config /\ from_config c config = Err TypeError.
Proof.
  exists (flat_map (fun n => match find_class n with Some c => [c] | None => [] end) ["Bleu"; "BooleanFlipRates"; "COCOAveragePrecision"; "MaxRecall"; "ObjectDetectionMaxRecall"]).
  split; [|split; [vm_compute; reflexivity|split]].
  - intros c I. apply in_flat_map in I. destruct I as (n & _ & I). unfold find_class in I. destruct (find _ classes) as [c'|] eqn:F; [|contradiction]. destruct I as [<-|[]]. apply find_some in F. tauto.
  - intros c I. match type of I with In _ ?l => let r := eval vm_compute in l in change (In c r) in I end. cbn [In] in I. decompose [or] I; try contradiction; subst c; vm_compute; eauto.
  - intros c kw m I ND E.
    assert (B : forall n k, In c match find_class n with Some c => [c] | None => [] end -> match find_class n with Some c => refusing c k && surely (mc_ctor c) k false && (negb (memb String.eqb k (none_keys c)) || match unset (mc_ctor c) k with Some (Some (JNum _)) => true | _ => false end) | None => false end = true ->
      (forall c l b, find_class n = Some c -> mc_ctor c = Sub l b -> lv_check l = unchecked) -> exists config, get_config c m = Ok config /\ from_config c config = Err TypeError).
    { intros n k J H U. destruct (find_class n) as [c'|] eqn:F; [|contradiction]. destruct J as [->|[]]. apply andb_prop in H. destruct H as [H H3]. apply andb_prop in H. destruct H as [H1 H2].
      destruct (construct_make _ _ _ E) as (s & E' & SM). assert (KN : k <> "name").
      { intros ->. unfold refusing in H1. destruct (mc_ctor c); [discriminate|]. rewrite !andb_true_iff in H1. cbn in H1. intuition discriminate. }
      specialize (SM k KN). destruct (dget String.eqb m k) as [v|] eqn:D; [|exfalso; symmetry in SM; exact (surely_there _ _ _ kw s H2 (fun Q => match Bool.diff_false_true Q with end) E' SM)].
      apply (refusing_refuses c k H1 (fun l b => U c l b eq_refl) kw m v ND E D). apply orb_true_iff in H3. destruct H3 as [H3|H3]; [left; apply negb_true_iff in H3; exact H3|right].
      destruct (unset (mc_ctor c) k) as [[[]|]|] eqn:UN; try discriminate. rewrite (proj2 (unset_arrives _ _ _ UN _ _ E')) in SM. congruence. }
    apply in_flat_map in I. destruct I as (n & NI & J). cbn [In] in NI. decompose [or] NI; try contradiction; subst n.
    + apply (B "Bleu" "effective_order" J); [vm_compute; reflexivity|]. intros c0 l b F C. vm_compute in F. injection F as <-. injection C as <- <-. reflexivity.
    + apply (B "BooleanFlipRates" "symmetric_flip_rate_name" J); [vm_compute; reflexivity|]. intros c0 l b F C. vm_compute in F. injection F as <-. injection C as <- <-. reflexivity.
    + apply (B "COCOAveragePrecision" "recall_thresholds" J); [vm_compute; reflexivity|]. intros c0 l b F C. vm_compute in F. injection F as <-. injection C as <- <-. reflexivity.
    + apply (B "MaxRecall" "thresholds" J); [vm_compute; reflexivity|]. intros c0 l b F C. vm_compute in F. injection F as <-. injection C as <- <-. reflexivity.
    + apply (B "ObjectDetectionMaxRecall" "thresholds" J); [vm_compute; reflexivity|]. intros c0 l b F C. vm_compute in F. injection F as <-. injection C as <- <-. reflexivity.
Qed.

Lemma C298_threshold_of_accuracy_refuted_pf : exists c, In c classes /\ mc_class c = "BinaryAccuracy" /\ (exists m, construct c [("threshold", JNum (Q2Qc (1#4)))] = Ok m) /\
  forall kw m v, NoDup (map fst kw) -> dget String.eqb kw "threshold" = Some v -> v <> JNull -> construct c kw = Ok m ->
    exists config, get_config c m = Ok config /\ from_config c config = Err TypeError.
Proof.
  destruct (find_class "BinaryAccuracy") as [c|] eqn:F; [|vm_compute in F; discriminate]. exists c. split; [apply find_some in F; tauto|].
  vm_compute in F. injection F as <-. split; [reflexivity|]. split; [eexists; vm_compute; reflexivity|]. intros kw m v ND D V E.
  match goal with |- exists config, get_config ?c _ = _ /\ _ => set (c0 := c) in * end.
  apply (refusing_refuses c0 "thresholds") with (kw := kw) (v := v); [vm_compute; reflexivity| |exact ND|exact E| |right; exact V].
  - intros l b Q. injection Q as <- <-. reflexivity.
  - destruct (construct_make _ _ _ E) as (s & E' & SM). rewrite SM by discriminate. unfold c0 in E'. cbn [mc_ctor] in E'. apply make_sub in E'. destruct E' as (env & kws & B & _ & S & M).
    destruct (bind_args_ok _ _ _ B) as (_ & B2 & _). destruct (super_args_ok _ _ _ _ S) as (S1 & _). match type of M with make ?b _ = _ => assert (CA := carried_arrives b "thresholds" eq_refl _ _ M) end.
    rewrite CA, S1. destruct (B2 "threshold" eq_refl) as (Q & _). unfold bound in Q. rewrite D in Q.
    match goal with |- context [dget String.eqb (lv_super ?l) ?k] => change (dget String.eqb (lv_super l) k) with (Some (Arg "threshold")) end. cbn [eval]. rewrite Q. reflexivity.
Qed.

(** preprocessors end at ConfusionMatrixMetricBase.__init__: it takes them and uses them nowhere. *)

Fixpoint stops (c : ctor) (k : string) : bool :=
  match c with
  | Root => false
  | Sub l b => negb (dmem String.eqb (lv_super l) k) && (if is_param l k then negb (memb String.eqb k (passed b)) else negb (lv_kwargs l) && negb (memb String.eqb k (passed b)) || stops b k)
  end.

Lemma stops_there c k : forall kw m, stops c k = true -> make c kw = Ok m -> dget String.eqb m k = None.
Proof.
  induction c as [|l b IH]; intros kw m H E; [discriminate|]. apply make_sub in E. destruct E as (env & kws & B & _ & S & M). destruct (super_args_ok _ _ _ _ S) as (S1 & _).
  cbn [stops] in H. apply andb_prop in H. destruct H as [H1 H2]. unfold dmem in H1. assert (K : dget String.eqb (lv_super l) k = None) by (destruct (dget String.eqb (lv_super l) k); [discriminate|reflexivity]).
  specialize (S1 k). rewrite K in S1. unfold extra in S1. destruct (is_param l k) eqn:P.
  - rewrite andb_false_r in S1. apply not_memb in H2. exact (not_passed b k H2 _ _ M S1).
  - apply orb_true_iff in H2. destruct H2 as [H2|H2]; [|exact (IH _ _ H2 M)]. apply andb_prop in H2. destruct H2 as [H2 H3]. destruct (lv_kwargs l); [discriminate|]. apply not_memb in H3. exact (not_passed b k H3 _ _ M S1).
Qed.

Lemma C299_preprocessors_are_lost_refuted_pf : exists c, In c classes /\ mc_class c = "Precision" /\
  (forall v, exists m, construct c [("preprocessors", v)] = Ok m) /\ forall kw m, construct c kw = Ok m -> dget String.eqb m "preprocessors" = None.
Proof.
  destruct (find_class "Precision") as [c|] eqn:F; [|vm_compute in F; discriminate]. exists c. split; [apply find_some in F; tauto|].
  vm_compute in F. injection F as <-. split; [reflexivity|]. split; [intros v; eexists; vm_compute; reflexivity|]. intros kw m E.
  destruct (construct_make _ _ _ E) as (s & E' & SM). rewrite SM by discriminate. refine (stops_there _ _ kw s _ E'). vm_compute. reflexivity.
Qed.

(** The metrics that hand all further keywords on to Metric. *)

Definition handing_on : list string := ["ConfusionMatrixPlot"; "MeanAbsoluteError"; "MeanAbsolutePercentageError"; "MeanSquaredError"; "MeanSquaredLogarithmicError"].

Lemma C299_no_metric_keeps_preprocessors_pf : forall c kw m, In c classes -> ~ In (mc_class c) handing_on -> construct c kw = Ok m -> dget String.eqb m "preprocessors" = None.
Proof.
  intros c kw m I N E. assert (G : forallb (fun c => stops (mc_ctor c) "preprocessors" || memb String.eqb (mc_class c) handing_on) classes = true) by (vm_compute; reflexivity).
  rewrite forallb_forall in G. specialize (G c I). rewrite (memb_false _ _ N), orb_false_r in G. destruct (construct_make _ _ _ E) as (s & E' & SM). rewrite SM by discriminate. exact (stops_there _ _ _ _ G E').
Qed.

(** The reserved arguments and what is asked for them. *)

Definition requested {K} (r : request K) : list (string * kwarg K) :=
  [("eval_config", Text (rq_eval_config r)); ("schema", Text (rq_schema r)); ("model_names", Names (rq_models r)); ("output_names", Names (rq_outputs r));
   ("sub_keys", Keys (rq_sub_keys r)); ("aggregation_type", Text (rq_aggregation r)); ("class_weights", Weights (rq_class_weights r));
   ("example_weighted", Flag (rq_example_weighted r)); ("query_key", Text (rq_query_key r))].

(** Weights are asked for and the function does not take them. *)

Definition unsupported {K} (args : list string) (r : request K) : Prop :=
  (~ In "class_weights" args /\ exists w ws, rq_class_weights r = Some (w :: ws)) \/ (~ In "example_weighted" args /\ rq_example_weighted r = true).

(** What the function gets under a name: what is asked for, before what the metric was made with. *)

Definition gets {K} (args : list string) (asked : list (string * kwarg K)) (own : kwargs K) (kw : kwargs K) : Prop :=
  forall k, (forall v, In k args -> In (k, v) asked -> dget String.eqb kw k = Some v) /\
            (~ In k args \/ ~ In k (map fst asked) -> dget String.eqb kw k = dget String.eqb own k).

Lemma put_get {K} (args : list string) (kw : kwargs K) n v k :
  dget String.eqb (if memb String.eqb n args then dset String.eqb kw n v else kw) k =
  if memb String.eqb n args && String.eqb n k then Some v else dget String.eqb kw k.
Proof.
  destruct (memb String.eqb n args); [|reflexivity]. cbn [andb]. destruct (String.eqb n k) eqn:Q.
  - apply seqb_true in Q. subst. apply (dget_dset_eq String.eqb String.eqb_eq).
  - apply String.eqb_neq in Q. apply (dget_dset_neq String.eqb String.eqb_eq). congruence.
Qed.

Definition supported {K} (args : list string) (r : request K) : bool :=
  (memb String.eqb "class_weights" args || negb (some_weights (rq_class_weights r))) && (memb String.eqb "example_weighted" args || negb (rq_example_weighted r)).

Lemma supported_iff {K} args (r : request K) : supported args r = false <-> unsupported args r.
Proof.
  unfold supported, unsupported. assert (M : forall n, ~ In n args <-> memb String.eqb n args = false).
  { intros n. split; [apply memb_false|]. intros Q I. apply memb_key in I. congruence. }
  rewrite !M. destruct (memb String.eqb "class_weights" args), (memb String.eqb "example_weighted" args), (rq_example_weighted r), (rq_class_weights r) as [[|w ws]|]; cbn; split; intros Q; try discriminate; try reflexivity; try tauto;
    try (destruct Q as [(Q & x & y & Z)|(Q & Z)]; discriminate); eauto; intuition eauto.
Qed.

Lemma update_ok {K} args (kw : kwargs K) r : supported args r = true -> exists kw', update_kwargs args kw r = Ok kw' /\
  forall k, dget String.eqb kw' k = match (if memb String.eqb k args then dget String.eqb (requested r) k else None) with Some v => Some v | None => dget String.eqb kw k end.
Proof.
  unfold supported, update_kwargs. cbv zeta. intros S. apply andb_prop in S. destruct S as [S1 S2].
  set (k6 := if memb String.eqb "aggregation_type" args then _ else _).
  assert (E1 : (if memb String.eqb "class_weights" args then Ok (dset String.eqb k6 "class_weights" (Weights (rq_class_weights r))) else if some_weights (rq_class_weights r) then Err ValueError else Ok k6)
    = Ok (if memb String.eqb "class_weights" args then dset String.eqb k6 "class_weights" (Weights (rq_class_weights r)) else k6)).
  { destruct (memb String.eqb "class_weights" args); [reflexivity|]. destruct (some_weights (rq_class_weights r)); [discriminate|reflexivity]. }
  rewrite E1. cbn [bind]. set (k8 := if memb String.eqb "query_key" args then _ else _).
  exists (if memb String.eqb "example_weighted" args then dset String.eqb k8 "example_weighted" (Flag (rq_example_weighted r)) else k8). split.
  - destruct (memb String.eqb "example_weighted" args); [reflexivity|]. destruct (rq_example_weighted r); [discriminate|reflexivity].
  - intros k. unfold k8, k6. rewrite !put_get. unfold requested. cbn [dget].
    destruct (in_dec string_dec k merge_args) as [I|I].
    + cbn [In merge_args] in I. decompose [or] I; try contradiction; subst k;
        repeat match goal with |- context [String.eqb ?a ?b] => let v := eval vm_compute in (String.eqb a b) in change (String.eqb a b) with v end; cbv iota; rewrite ?andb_false_r, ?andb_true_r; cbv iota;
        match goal with |- context [memb String.eqb ?n args] => destruct (memb String.eqb n args); reflexivity end.
    + assert (N : forall n, In n merge_args -> String.eqb n k = false /\ String.eqb k n = false) by (intros n J; split; apply String.eqb_neq; congruence).
      repeat match goal with |- context [String.eqb ?a k] => rewrite (proj1 (N a ltac:(cbn; tauto))) end.
      repeat match goal with |- context [String.eqb k ?a] => rewrite (proj2 (N a ltac:(cbn; tauto))) end.
      rewrite !andb_false_r. destruct (memb String.eqb k args); reflexivity.
Qed.

Lemma requested_NoDup {K} (r : request K) : NoDup (map fst (requested r)).
Proof. apply nodupb_NoDup. reflexivity. Qed.

Lemma gets_of {K} args (r : request K) own kw :
  (forall k, dget String.eqb kw k = match (if memb String.eqb k args then dget String.eqb (requested r) k else None) with Some v => Some v | None => dget String.eqb own k end) -> gets args (requested r) own kw.
Proof.
  intros H k. rewrite H. split.
  - intros v I J. rewrite (proj2 (memb_key _ _) I). rewrite (proj2 (dget_In_NoDup String.eqb String.eqb_eq _ k v (requested_NoDup r)) J). reflexivity.
  - intros [N|N]; [rewrite (memb_false _ _ N); reflexivity|]. destruct (memb String.eqb k args); [|reflexivity]. rewrite (proj2 (dget_none_key _ _) N). reflexivity.
Qed.

Lemma update_err {K} args (kw : kwargs K) r : supported args r = false -> update_kwargs args kw r = Err ValueError.
Proof.
  unfold supported, update_kwargs. cbv zeta.
  destruct (memb String.eqb "class_weights" args).
  - cbn [bind orb andb]. destruct (memb String.eqb "example_weighted" args); [discriminate|]. destruct (rq_example_weighted r); [reflexivity|discriminate].
  - destruct (some_weights (rq_class_weights r)); [reflexivity|]. cbn [bind orb andb negb]. destruct (memb String.eqb "example_weighted" args); [discriminate|]. destruct (rq_example_weighted r); [reflexivity|discriminate].
Qed.

Lemma C300_arguments_pf : forall (K C : Type) args (create : kwargs K -> res (list C)) s r,
  (unsupported args r -> computations args create s r = Err ValueError) /\
  (~ unsupported args r -> exists kw, computations args create s r = create kw /\ gets args (requested r) (map (fun kv => (fst kv, Setting (snd kv))) s) kw).
Proof.
  intros K C args create s r. unfold computations. split.
  - intros U. apply supported_iff in U. rewrite (update_err _ _ _ U). reflexivity.
  - intros U. destruct (supported args r) eqn:S; [|apply supported_iff in S; contradiction]. destruct (update_ok args (map (fun kv => (fst kv, Setting (snd kv))) s) r S) as (kw & E & G). rewrite E. exists kw. split; [reflexivity|]. apply gets_of. exact G.
Qed.

(** What the function wrapped by merge_per_key_computations gets for one key. *)

Definition asked_for {K} (r : request K) (m o : string) (k : option K) : list (string * kwarg K) :=
  requested (Request (rq_eval_config r) (rq_schema r) (Some (or_else (rq_models r) [""])) (Some (or_else (rq_outputs r) [""])) (Some (or_else (rq_sub_keys r) [None])) (rq_aggregation r) (rq_class_weights r) (rq_example_weighted r) (rq_query_key r)) ++
  [("model_name", OneName m); ("output_name", OneName o); ("sub_key", OneKey k)].

Definition all_keys {K} (r : request K) : list (string * (string * option K)) :=
  list_prod (or_else (rq_models r) [""]) (list_prod (or_else (rq_outputs r) [""]) (or_else (rq_sub_keys r) [None])).

Lemma foldM_cat {A S} (f : S -> A -> res S) l k s : foldM f (l ++ k) s = let! s := foldM f l s in foldM f k s.
Proof. revert s. induction l as [|x l IH]; intros s; [reflexivity|]. cbn [app foldM]. destruct (f s x); cbn [bind]; [apply IH|reflexivity]. Qed.

Lemma foldM_map_in {A B S} (f : S -> A -> res S) (g : B -> A) l s : foldM f (map g l) s = foldM (fun s x => f s (g x)) l s.
Proof. revert s. induction l as [|x l IH]; intros s; [reflexivity|]. cbn [map foldM]. destruct (f s (g x)); cbn [bind]; [apply IH|reflexivity]. Qed.

Lemma foldM_prod {A B S} (f : S -> A * B -> res S) l1 l2 s : foldM (fun s a => foldM (fun s b => f s (a, b)) l2 s) l1 s = foldM f (list_prod l1 l2) s.
Proof.
  revert s. induction l1 as [|a l1 IH]; intros s; [reflexivity|]. cbn [list_prod foldM]. rewrite foldM_cat, foldM_map_in. destruct (foldM _ l2 s); cbn [bind]; [apply IH|reflexivity].
Qed.

Lemma foldM_same {A S} (f g : S -> A -> res S) l : (forall s x, In x l -> f s x = g s x) -> forall s, foldM f l s = foldM g l s.
Proof. induction l as [|x l IH]; intros H s; [reflexivity|]. cbn [foldM]. rewrite (H s x (or_introl eq_refl)). destruct (g s x); cbn [bind]; [apply IH; intros; apply H; right; assumption|reflexivity]. Qed.

Lemma foldM_collect {A X} (g : A -> res (list X)) l s : foldM (fun cs x => let! new := g x in Ok (cs ++ new)) l s = let! parts := mapM g l in Ok (s ++ concat parts).
Proof.
  revert s. induction l as [|x l IH]; intros s; cbn [foldM mapM].
  - cbn [bind concat]. rewrite app_nil_r. reflexivity.
  - destruct (g x) as [new|e]; cbn [bind]; [|reflexivity]. rewrite IH. destruct (mapM g l) as [parts|e]; cbn [bind]; [|reflexivity]. cbn [concat]. rewrite app_assoc. reflexivity.
Qed.

Lemma mapM_compose {A B X} (g : B -> res X) (h : A -> B) l : mapM (fun x => g (h x)) l = mapM g (map h l).
Proof. induction l as [|x l IH]; [reflexivity|]. cbn [mapM map]. rewrite IH. reflexivity. Qed.

Lemma foldM_ext {A S} (f g : S -> A -> res S) : (forall s x, f s x = g s x) -> forall l s, foldM f l s = foldM g l s.
Proof. intros H l. apply foldM_same. intros s x _. apply H. Qed.

Lemma filter_get {X} (p : string -> bool) (d : list (string * X)) k : dget String.eqb (filter (fun kv => p (fst kv)) d) k = if p k then dget String.eqb d k else None.
Proof.
  induction d as [|[a v] t IH]; cbn [filter dget fst]; [destruct (p k); reflexivity|]. destruct (String.eqb k a) eqn:Q.
  - apply seqb_true in Q. subst a. destruct (p k) eqn:P; [cbn [dget]; rewrite String.eqb_refl; reflexivity|]. exact IH.
  - destruct (p a); [cbn [dget]; rewrite Q; exact IH|exact IH].
Qed.

(** The settings that are not taken by merge_computations_fn itself. *)

Definition own_settings {K} (s : settings) : kwargs K := filter (fun kv => negb (memb String.eqb (fst kv) merge_args)) (map (fun kv => (fst kv, Setting (snd kv))) s).

Lemma C300_one_call_for_each_key_pf : forall (K C : Type) args (create : kwargs K -> res (list C)) s r, ~ unsupported args r ->
  exists kws, Forall2 (fun mok kw => gets args (asked_for r (fst mok) (fst (snd mok)) (snd (snd mok))) (own_settings s) kw) (all_keys r) kws /\
    computations_per_key args create s r = let! parts := mapM create kws in Ok (concat parts).
Proof.
  intros K C args create s r U. set (r' := Request (rq_eval_config r) (rq_schema r) (Some (or_else (rq_models r) [""])) (Some (or_else (rq_outputs r) [""])) (Some (or_else (rq_sub_keys r) [None])) (rq_aggregation r) (rq_class_weights r) (rq_example_weighted r) (rq_query_key r)).
  assert (SU : supported args r' = true) by (destruct (supported args r') eqn:S; [reflexivity|]; apply supported_iff in S; exfalso; apply U; exact S).
  unfold computations_per_key, computations. destruct (update_ok merge_args (map (fun kv => (fst kv, Setting (snd kv))) s) r) as (kw0 & E0 & G0); [reflexivity|]. rewrite E0. cbn [bind].
  set (kw1 := filter _ kw0). destruct (update_ok args kw1 r' SU) as (kw2 & E2 & G2).
  set (put n v (kw : kwargs K) := if memb String.eqb n args then dset String.eqb kw n v else kw).
  set (call mok := put "sub_key" (OneKey (snd (snd mok))) (put "output_name" (OneName (fst (snd mok))) (put "model_name" (OneName (fst mok)) kw2)) : kwargs K).
  exists (map call (all_keys r)). split.
  - assert (OWN : forall k, dget String.eqb kw1 k = dget String.eqb (own_settings s) k).
    { intros k. unfold kw1, own_settings. rewrite !(filter_get (fun n => negb (memb String.eqb n merge_args))), G0. destruct (memb String.eqb k merge_args); reflexivity. }
    induction (all_keys r) as [|[m [o k]] l IH]; constructor; [|exact IH]. cbn [fst snd]. intros n. unfold call, put. cbn [fst snd]. rewrite !put_get, G2, OWN. unfold asked_for. fold r'. split.
    + intros v I J. rewrite (proj2 (memb_key _ _) I). apply in_app_iff in J. destruct J as [J|J].
      * rewrite (proj2 (dget_In_NoDup String.eqb String.eqb_eq _ n v (requested_NoDup r')) J).
        assert (Q : String.eqb "sub_key" n = false /\ String.eqb "output_name" n = false /\ String.eqb "model_name" n = false) by (unfold requested in J; cbn [In] in J; decompose [or] J; try contradiction; match goal with X : (_, _) = (n, v) |- _ => injection X as <- _ end; repeat split; reflexivity).
        destruct Q as (-> & -> & ->). rewrite !andb_false_r. reflexivity.
      * cbn [In] in J. decompose [or] J; try contradiction; match goal with X : (_, _) = (n, v) |- _ => injection X as <- <- end; rewrite (proj2 (memb_key _ _) I); cbn; try reflexivity; rewrite ?andb_false_r; reflexivity.
    + intros N. assert (Q : forall a, In a ["sub_key"; "output_name"; "model_name"] -> memb String.eqb a args && String.eqb a n = false).
      { intros a J. destruct (String.eqb a n) eqn:X; [|apply andb_false_r]. apply seqb_true in X. subst a. destruct N as [N|N]; [rewrite (memb_false _ _ N); reflexivity|]. exfalso. apply N. rewrite map_app, in_app_iff. right. cbn in *. tauto. }
      rewrite (Q "sub_key"), (Q "output_name"), (Q "model_name") by (cbn; tauto).
      destruct N as [N|N]; [rewrite (memb_false _ _ N); reflexivity|]. rewrite (proj2 (dget_none_key _ _)); [destruct (memb String.eqb n args); reflexivity|]. intros X. apply N. rewrite map_app, in_app_iff. left. exact X.
  - unfold merge_per_key. cbv zeta. fold r'. rewrite <- mapM_compose. rewrite <- (app_nil_l (concat _)) || idtac.
    transitivity (foldM (fun cs mok => let! new := create (call mok) in Ok (cs ++ new)) (all_keys r) []).
    + unfold all_keys. rewrite <- foldM_prod. apply foldM_ext. intros s1 m. rewrite <- foldM_prod. apply foldM_ext. intros s2 o. apply foldM_ext. intros s3 k. rewrite E2. reflexivity.
    + rewrite foldM_collect. reflexivity.
Qed.

Lemma C300_unsupported_pf : forall (K C : Type) args (create : kwargs K -> res (list C)) s r, unsupported args r ->
  computations_per_key args create s r = match all_keys r with [] => Ok [] | _ :: _ => Err ValueError end.
Proof.
  intros K C args create s r U. set (r' := Request (rq_eval_config r) (rq_schema r) (Some (or_else (rq_models r) [""])) (Some (or_else (rq_outputs r) [""])) (Some (or_else (rq_sub_keys r) [None])) (rq_aggregation r) (rq_class_weights r) (rq_example_weighted r) (rq_query_key r)).
  assert (SU : supported args r' = false) by (apply supported_iff; exact U).
  unfold computations_per_key, computations. destruct (update_ok merge_args (map (fun kv => (fst kv, Setting (snd kv))) s) r) as (kw0 & E0 & G0); [reflexivity|]. rewrite E0. cbn [bind].
  unfold merge_per_key. cbv zeta. fold r'.
  transitivity (foldM (fun (cs : list C) (_ : string * (string * option K)) => Err ValueError) (all_keys r) []).
  - unfold all_keys. rewrite <- foldM_prod. apply foldM_ext. intros s1 m. rewrite <- foldM_prod. apply foldM_ext. intros s2 o. apply foldM_ext. intros s3 k. rewrite (update_err _ _ _ SU). reflexivity.
  - destruct (all_keys r); reflexivity.
Qed.
