(** Vocabulary for the properties of compiled components. *)
From Verif Require Import Base ModelShare ModelConfig ModelComponent SpecComponent SpecConfig
  ModelCompile.
Local Open Scope string_scope.

(** Every class used by a workflow can be imported from appletree.plugins under its name, and the
    name stands for that class. *)
Definition published (plugins : string -> option plugin) (reg : registry) (nodep : string)
    (names : list string) : Prop :=
  forall d p, Reach reg nodep names d -> get d reg = Some p -> plugins (p_name p) = Some p.

(** A config object as made by its constructor. *)
Definition constructed (cf : config) : Prop :=
  exists kd name default, config_init kd name default = Ok cf.

(** Instance [i] was made from config [cf] with the values [vs]. *)
Definition config_value (i : instance) (cf : config) (vs : list value) : Prop :=
  exists n, nth_error (map snd (p_configs (i_class i))) n = Some cf /\
    option_map b_values (nth_error (i_built i) n) = Some vs.

(** What a user has set for [cf]: one value for everybody, or an entry for this likelihood. *)
Definition explicit_value (contents : dict value) (n llh : string) (v : value) : Prop :=
  (get n contents = Some v /\ not_dict v) \/
  (exists d, get n contents = Some (VDict d) /\ get llh d = Some v).

(** A class is found in appletree.plugins under its own name. *)
Definition well_named (plugins : string -> option plugin) : Prop :=
  forall n p, plugins n = Some p -> p_name p = n.

(** The current value of a config as seen by one likelihood. *)
Inductive shown (contents : dict value) (llh : string) (cf : config) : option value -> Prop :=
| shown_unset : get (c_name cf) contents = None -> shown contents llh cf None
| shown_value v : get (c_name cf) contents = Some v -> not_dict v -> shown contents llh cf (Some v)
| shown_entry d v : get (c_name cf) contents = Some (VDict d) -> get llh d = Some v ->
    shown contents llh cf (Some v).

(** A per-likelihood table without an entry for this likelihood. *)
Definition table_lacks (contents : dict value) (llh : string) (cf : config) : Prop :=
  exists d, get (c_name cf) contents = Some (VDict d) /\ get llh d = None.
