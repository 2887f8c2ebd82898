(** Model of running a compiled component, of its lineage and of show_config and new_component
    (appletree/component.py). No proofs in this file. *)
From Verif Require Import Base ModelShare ModelConfig ModelComponent.
Local Open Scope string_scope.

Section RunClosure.
  Variable V : Type.
  (** What calling an instance (plugin.py:53-55 __call__) with some arguments returns. It may
      depend on the class, the likelihood name and the built configs of the instance. *)
  Variable isem : instance -> list V -> result (list V).

  (** The generated function calls the instances by their global names in the namespace it was
      executed in (component.py:359-363, 376-380). *)
  Definition call_instance (insts : dict instance) (iname : string) (args : list V)
    : result (list V) :=
    match get iname insts with
    | None => Err NameError
    | Some i => isem i args
    end.

  Definition run_closure (cl : closure) (key nodep_value params : V) : result (V * list V) :=
    run_prog V (call_instance (cl_insts cl)) (cl_prog cl) key nodep_value params.

  (** component.py:438, 449: [self.simulate(key, batch_size, parameters)]; ComponentSim has no
      attribute simulate before compile. *)
  Definition simulate (k : component) (key nodep_value params : V) : result (V * list V) :=
    match k_simulate k with
    | None => Err AttributeError
    | Some cl => run_closure cl key nodep_value params
    end.
End RunClosure.

(** component.py:403-438 deduce followed by compile; nothing is compiled if deduce raises. *)
Definition build_component (limit : nat) (data_names : list string) (func nodep : string)
    (noeff : bool) (f : fs) (plugins : string -> option plugin) (k : component) (w : world)
  : world * component * result unit :=
  let '(w1, k1, r) := deduce limit data_names func nodep noeff k w in
  match r with
  | Err e => (w1, k1, Err e)
  | Ok _ => compile f plugins k1 w1
  end.

(** component.py:491-502 set_config; the warning asks to run deduce() and compile() again. *)
Definition set_config (f : fs) (configs : dict value) (w : world) : world * result unit :=
  let '(c', r) := set_global_config f configs (w_cache w) in (with_cache w c', r).

(** component.py:571-593, the entry "instances" of the lineage, restricted to the values of the
    configs (plugin.py:94-106). The instances are looked up in the namespace of the likelihood;
    their configs are those of the class. *)
Definition component_lineage (k : component) (w : world)
  : result (list (string * list (list value))) :=
  match get (k_llh k) (w_fn w) with
  | None => Err KeyError
  | Some a =>
      match get (k_func k) (nth a (w_heap w) []) with
      | None => Err KeyError
      | Some cl => Ok (map (fun ni => (fst ni, instance_lineage w (snd ni))) (cl_insts cl))
      end
  end.

(** What the compiled function itself works with: the copies held by the instances
    (plugin.py:50-51). *)
Definition own_values (cl : closure) : list (string * list (list value)) :=
  map (fun ni => (fst ni, map b_values (i_built (snd ni)))) (cl_insts cl).

(** A row of the table made by show_config (component.py:530-541): option, default (None for
    OMITTED), current value (None if not set), applies_to. *)
Record conf_row := mk_row {
  r_option : string;
  r_default : option value;
  r_current : option value;
  r_applies : list string
}.

(** component.py:524-541, the loop over the configs of one plugin. The value for this likelihood is
    taken out of a per-likelihood table; a missing entry is a KeyError. [dict.get] is inherited and
    does not record the access. *)
Fixpoint show_rows (llh : string) (provides : list string) (cfs : list config) (c : rdict)
  : result (list conf_row) :=
  match cfs with
  | [] => Ok []
  | cf :: rest =>
      match (match get (c_name cf) (contents c) with
             | Some (VDict d) => match get llh d with Some v => Ok (Some v) | None => Err KeyError end
             | o => Ok o
             end) with
      | Err e => Err e
      | Ok cur =>
          match show_rows llh provides rest c with
          | Err e => Err e
          | Ok rows => Ok (mk_row (c_name cf) (c_default cf) cur provides :: rows)
          end
      end
  end.

(** component.py:515-523: plugins already seen are skipped. Simplified: classes are compared by
    name here ([p in seen] compares the class objects). *)
Fixpoint show_plugins (llh : string) (ps : list plugin) (c : rdict) : result (list conf_row) :=
  match ps with
  | [] => Ok []
  | p :: rest =>
      match show_rows llh (p_provides p) (map snd (p_configs p)) c with
      | Err e => Err e
      | Ok rows =>
          match show_plugins llh rest c with
          | Err e => Err e
          | Ok rows' => Ok (rows ++ rows')%list
          end
      end
  end.

(** component.py:504-549 show_config; the name without dependencies is always batch_size. *)
Definition show_config (limit : nat) (data_names : list string) (k : component) (w : world)
  : result (list conf_row) :=
  match dependencies_deduce (k_registry k) "batch_size" limit data_names [] with
  | Err e => Err e
  | Ok deps => show_plugins (k_llh k) (first_by_name [] deps) (w_cache w)
  end.
