(* Model of eval_metrics_graph/eval_metrics_graph.py: metrics in a TensorFlow graph, whose variables
   are reset, updated with batches, read and set.  The module eval_saved_model/util.py it imports is
   not in the repository; the functions taken from there (identities of tensors) are left out. *)
From Coq Require Import String Ascii.
From Verif Require Import Base.
Local Open Scope string_scope.
Local Open Scope list_scope.

(** What is raised: exceptions of Python (with a message as first argument, or not), and errors of
    TensorFlow, which have no such argument. *)
Inductive failure := Raised (e : exn) (message : bool) | InvalidArgument | ResourceExhausted | OtherOpError.
Inductive outcome (A : Type) := Good (a : A) | Failed (f : failure).
Arguments Good {A} a.
Arguments Failed {A} f.

(** utils/util.py 750-784 [reraise_augmented]: the same kind of exception with a longer message, and a
    RuntimeError if the first argument is not a message. *)
Definition reraise (f : failure) : failure :=
  match f with
  | Raised e true => Raised e true
  | _ => Raised RuntimeError true
  end.
(** 347-354: what _perform_metrics_update_list reraises; other exceptions pass *)
Definition augmented (f : failure) : failure :=
  match f with
  | Raised RuntimeError _ | Raised TypeError _ | Raised ValueError _ | InvalidArgument | ResourceExhausted | OtherOpError => reraise f
  | _ => f
  end.
(** 375-379: what makes metrics_reset_update_get_list go on one by one *)
Definition goes_on (f : failure) : bool :=
  match f with Raised ValueError _ | InvalidArgument | ResourceExhausted => true | _ => false end.

Section Graph.
  (** Values of variables, examples and values of metrics. *)
  Context {V X R : Type}.
  (** The initial value of each variable; variables are numbered. *)
  Variable initial : nat -> V.
  (** The metric variables of the session that are initialised, with their values. *)
  Definition session := list (nat * V).
  (** An update op changes the session, even if it fails; a value op reads it. *)
  Definition update_op := list X -> session -> session * option failure.
  Definition value_op := session -> outcome R.

  (** 63-138: names, value ops and update ops (parallel lists), the METRIC_VARIABLES collection of the
      graph, the nodes (and with them placeholders and assignments), and what is made at the end of a
      registration: the variables reset, those assigned, and the ops of the update function. *)
  Record graph := Graph {
    g_names : list string; g_value_ops : list value_op; g_update_ops : list update_op;
    g_collection : list nat; g_nodes : list nat;
    g_reset : option (list nat); g_assigned : option (list nat); g_update_fn : option (list update_op)
  }.
  Definition metric_ops := list (string * (value_op * update_op)).

  (** local_variables_initializer().  Simplification: metric variables are all local variables. *)
  Definition initialised (nodes : list nat) : session := map (fun n => (n, initial n)) nodes.

  (** 217-227: each op is appended unless its name is taken; those before stay *)
  Fixpoint append_ops (ops : metric_ops) (g : graph) : graph * option failure :=
    match ops with
    | [] => (g, None)
    | (n, (v, u)) :: t =>
        if memb String.eqb n (g_names g) then (g, Some (Raised ValueError true))
        else append_ops t (Graph (g_names g ++ [n]) (g_value_ops g ++ [v]) (g_update_ops g ++ [u]) (g_collection g) (g_nodes g)
                                 (g_reset g) (g_assigned g) (g_update_fn g))
    end.
  (** 204-259 [register_additional_metric_ops]; gives the session too *)
  Definition register (ops : metric_ops) (g : graph) (s : session) : (graph * session) * option failure :=
    match append_ops ops g with
    | (g, Some f) => ((g, s), Some f)
    | (g, None) =>
        let nodes := g_nodes g ++ skipn (length (g_nodes g)) (g_collection g) in
        ((Graph (g_names g) (g_value_ops g) (g_update_ops g) (g_collection g) nodes
                (Some (g_collection g)) (Some nodes) (Some (g_update_ops g)),
          initialised (g_collection g)), None)
    end.

  (** 183-196: a callback gives metric ops, and adds variables to the collection *)
  Definition callback := graph -> metric_ops * list nat.
  Fixpoint run_callbacks (cs : list callback) (g : graph) (ops : metric_ops) : graph * (metric_ops + failure) :=
    match cs with
    | [] => (g, inl ops)
    | c :: t =>
        let (new, vars) := c g in
        let g := Graph (g_names g) (g_value_ops g) (g_update_ops g) (g_collection g ++ vars) (g_nodes g) (g_reset g) (g_assigned g) (g_update_fn g) in
        if existsb (fun n => memb String.eqb n (map fst ops)) (map fst new) then (g, inr (Raised ValueError true))
        else run_callbacks t g (ops ++ new)
    end.
  (** 150-196 [register_add_metric_callbacks] *)
  Definition register_callbacks (cs : list callback) (g : graph) (s : session) : (graph * session) * option failure :=
    match run_callbacks cs g [] with
    | (g, inr f) => ((g, s), Some f)
    | (g, inl ops) => register ops g s
    end.

  (** tf.group of update ops.  Simplification: they run in order up to the first that fails. *)
  Fixpoint run_updates (us : list update_op) (xs : list X) (s : session) : session * option failure :=
    match us with
    | [] => (s, None)
    | u :: t => match u xs s with
                | (s, None) => run_updates t xs s
                | (s, Some f) => (s, Some f)
                end
    end.
  (** 341-354 [_perform_metrics_update_list] *)
  Definition perform_update (g : graph) (xs : list X) (s : session) : session * option failure :=
    match g_update_fn g with
    | None => (s, Some (augmented (Raised ValueError true)))
    | Some us => let (s, f) := run_updates us xs s in (s, option_map augmented f)
    end.
  (** 436-438 [_reset_metric_variables]; before any registration session.run(None) is a TypeError *)
  Definition reset (g : graph) (s : session) : session * option failure :=
    match g_reset g with
    | Some nodes => (initialised nodes, None)
    | None => (s, Some (Raised TypeError true))
    end.
  (** 393-395 [_get_metric_variables]: a variable that is not initialised is an error *)
  Fixpoint read (nodes : list nat) (s : session) : outcome (list V) :=
    match nodes with
    | [] => Good []
    | n :: t => match dget Nat.eqb s n with
                | None => Failed OtherOpError
                | Some v => match read t s with Good vs => Good (v :: vs) | Failed f => Failed f end
                end
    end.
  Definition get_variables (g : graph) (s : session) : outcome (list V) := read (g_nodes g) s.

  (** 386-388 *)
  Fixpoint one_by_one (g : graph) (xs : list X) (s : session) : session * option failure :=
    match xs with
    | [] => (s, None)
    | x :: t => match perform_update g [x] s with
                | (s, None) => one_by_one g t s
                | (s, Some f) => (s, Some f)
                end
    end.
  (** 362-391 [metrics_reset_update_get_list] *)
  Definition reset_update_get (g : graph) (xs : list X) (s : session) : session * outcome (list V) :=
    match (match reset g s with (s, Some f) => (s, Some f) | (s, None) => perform_update g xs s end) with
    | (s, None) => (s, get_variables g s)
    | (s, Some f) =>
        if goes_on f then
          match reset g s with
          | (s, Some f) => (s, Failed f)
          | (s, None) => match one_by_one g xs s with
                         | (s, None) => (s, get_variables g s)
                         | (s, Some f) => (s, Failed f)
                         end
          end
        else (s, Failed f)
    end.

  (** 402-429 [_set_metric_variables]: every assignment is run, so every placeholder must be fed *)
  Definition set_variables (g : graph) (vs : list V) (s : session) : session * option failure :=
    match g_assigned g with
    | None => (s, Some (Raised TypeError true))
    | Some nodes =>
        if Nat.ltb (length vs) (length nodes) then (s, Some InvalidArgument)
        else (fold_left (fun s nv => dset Nat.eqb s (fst nv) (snd nv)) (combine nodes vs) s, None)
    end.
  (** 445-448 [_get_metric_values] *)
  Fixpoint run_values (vs : list value_op) (s : session) : outcome (list R) :=
    match vs with
    | [] => Good []
    | v :: t => match v s with
                | Failed f => Failed f
                | Good r => match run_values t s with Good rs => Good (r :: rs) | Failed f => Failed f end
                end
    end.
  Definition get_values (g : graph) (s : session) : outcome (list (string * R)) :=
    match run_values (g_value_ops g) s with
    | Good rs => Good (fold_left (fun d nr => dset String.eqb d (fst nr) (snd nr)) (combine (g_names g) rs) [])
    | Failed f => Failed f
    end.
  (** 455-460 [metrics_set_variables_and_get_values] *)
  Definition set_and_get (g : graph) (vs : list V) (s : session) : session * outcome (list (string * R)) :=
    match set_variables g vs s with
    | (s, Some f) => (s, Failed f)
    | (s, None) => (s, get_values g s)
    end.
End Graph.
