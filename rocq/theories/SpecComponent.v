(** Specification vocabulary for the workflow properties, independent of the functions of the
    model: reachability in the dependency graph, definedness of straight-line code, and the
    equations a simulation has to satisfy. *)
From Verif Require Import Base ModelShare ModelConfig ModelComponent.
From Coq Require Import Relations.
Local Open Scope string_scope.

(** Data names that have to be computed to produce [names]; [nodep] is given, not computed. *)
Inductive Reach (reg : registry) (nodep : string) (names : list string) : string -> Prop :=
| Reach_req d : In d names -> d <> nodep -> Reach reg nodep names d
| Reach_dep d p x :
    Reach reg nodep names d -> get d reg = Some p -> In x (p_depends p) -> x <> nodep ->
    Reach reg nodep names x.

(** [x] is a direct dependency of the plugin registered for [d]. *)
Definition edge (reg : registry) (nodep : string) (d x : string) : Prop :=
  exists p, get d reg = Some p /\ In x (p_depends p) /\ x <> nodep.

(** Every needed data name has a registered provider. *)
Definition complete (reg : registry) (nodep : string) (names : list string) : Prop :=
  forall d, Reach reg nodep names d -> exists p, get d reg = Some p.

(** No needed data name depends on itself. *)
Definition acyclic (reg : registry) (nodep : string) (names : list string) : Prop :=
  forall d, Reach reg nodep names d -> ~ clos_trans _ (edge reg nodep) d d.

(** Registered classes are determined by their name (generated code refers to them by name). *)
Definition unique_names (reg : registry) : Prop :=
  forall d p d' q, get d reg = Some p -> get d' reg = Some q -> p_name p = p_name q -> p = q.

(** Registries a user can obtain: any sequence of register calls, including failing ones. *)
Definition registry_after (calls : list (list plugin)) : registry :=
  fold_left (fun r ps => fst (register ps r)) calls [].

(** Straight-line code reads only names that are already defined. *)
Fixpoint reads_defined (defined : list string)
    (body : list (list string * string * list string)) : Prop :=
  match body with
  | [] => True
  | (outs, _, ins) :: body' =>
      (forall x, In x ins -> In x defined) /\ reads_defined (outs ++ defined)%list body'
  end.

Definition assigned (body : list (list string * string * list string)) : list string :=
  flat_map (fun st => fst (fst st)) body.

(** The equations solved by a simulation: the values [E] of the data names are such that each
    line, in order, maps the values of its inputs to the values of its outputs, the random key
    being threaded from [k] to [k']. *)
Inductive Solves {V} (sem : string -> list V -> result (list V)) (E : string -> option V)
    (params : V) : V -> list (list string * string * list string) -> V -> Prop :=
| Solves_nil k : Solves sem E params k [] k
| Solves_cons k k1 k2 outs inst ins argv vs body :
    map E ins = map Some argv ->
    sem inst (k :: params :: argv) = Ok (k1 :: vs) ->
    map E outs = map Some vs ->
    Solves sem E params k1 body k2 ->
    Solves sem E params k ((outs, inst, ins) :: body) k2.

(** The parameter that a config requires for likelihood [llh], read off the configuration: the
    value set globally, else the default; a per-likelihood table is looked up under [llh]; a list
    of four requires its last entry, any other list the default scaler name. *)
Definition effective_value (contents : dict value) (cf : config) (llh : string) : option value :=
  match (match get (c_name cf) contents with Some v => Some v | None => c_default cf end) with
  | Some (VDict d) => get llh d
  | v => v
  end.

Definition requires (contents : dict value) (llh : string) (cf : config) (x : string) : Prop :=
  c_kind cf = KSigmaMap /\
  exists l, effective_value contents cf llh = Some (VList l) /\
    ((exists a b c, l = [a; b; c; VStr x]) \/ (List.length l <> 4 /\ x = c_name cf ++ "_sigma")).

(** Equal defaults: both omitted, or both given and equal for Python. *)
Definition same_default (a b : option value) : Prop :=
  match a, b with
  | None, None => True
  | Some x, Some y => value_eqb x y = true
  | _, _ => False
  end.

(** Defaults of same-named configs agree between all plugins of a registry. *)
Definition defaults_agree (reg : registry) : Prop :=
  forall d p d' q n cf cf',
    get d reg = Some p -> get d' reg = Some q ->
    In (n, cf) (p_configs p) -> In (n, cf') (p_configs q) ->
    same_default (c_default cf) (c_default cf').

(** Every used plugin is the registered provider of everything it provides, provides nothing
    twice, and does not provide a name that the generated function uses itself. *)
Definition consistent (reg : registry) (nodep : string) (names : list string) : Prop :=
  forall d p, Reach reg nodep names d -> get d reg = Some p ->
    NoDup (p_provides p) /\
    forall x, In x (p_provides p) ->
      get x reg = Some p /\ x <> nodep /\ x <> "key" /\ x <> "parameters".

(** Config tables are keyed by the name of the config and no default is a table
    (what takes_config and Config.__init__ guarantee). *)
Definition wf_plugin (p : plugin) : Prop :=
  forall n cf, In (n, cf) (p_configs p) ->
    c_name cf = n /\ forall d, c_default cf <> Some (VDict d).
