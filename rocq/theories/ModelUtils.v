(** Model of parts of appletree/utils.py: set_gpu_memory_usage, add_extensions, and the
    dependency graphs. No proofs in this file. *)
From Coq Require Import Reals.
From Verif Require Import Base ModelComponent ModelParameter.
Local Open Scope string_scope.

(* ------------------------------------------------------------------ *)
(** * set_gpu_memory_usage *)

Definition digit (n : nat) : ascii := ascii_of_nat (48 + n).

(** Python [f"{n:d}"] of a non-negative integer: decimal digits without leading zeros; [fuel] bounds
    the number of digits and is chosen large enough below. *)
Fixpoint digits_of (fuel : nat) (n : Z) : list nat :=
  match fuel with
  | O => []
  | S f => ((if n <? 10 then [] else digits_of f (n / 10)) ++ [Z.to_nat (n mod 10)])%list
  end%Z.

Definition decimal (n : Z) : list nat := digits_of (S (Z.to_nat (Z.log2 n))) n.

Fixpoint print (l : list nat) : string :=
  match l with
  | [] => ""
  | d :: l' => String (digit d) (print l')
  end.

(** Python [int(x)]: truncation towards zero; only used on positive numbers here. *)
Definition int_of (x : R) : Z := (up x - 1)%Z.

(** utils.py 263-274 set_gpu_memory_usage: the value given to the environment variable
    XLA_PYTHON_CLIENT_MEM_FRACTION. Simplified: the product with 100 is exact. *)
Definition set_gpu_memory_usage (fraction : R) : result string :=
  let fraction := if Rlt_dec 1 fraction then (99 / 100)%R else fraction in
  if Rle_dec fraction 0 then Err ValueError
  else Ok ("." ++ print (decimal (int_of (fraction * 100)))).

(* ------------------------------------------------------------------ *)
(** * Extensions *)

(** A Python class: its __name__, its identity, the identities of its ancestors (itself included), and
    whether it carries the private attribute _<name>__is_base with a true value (plugin.py 19,
    component.py 26, 200, 600). *)
Record cls := mk_cls { c_name : string; c_id : nat; c_mro : list nat; c_is_base : bool }.

(** Attributes of a module: classes, modules (by name), or anything else. *)
Inductive attr :=
| AClass (c : cls)
| AModule (name : string)
| AOther (id : nat).

Record pymodule := mk_module { m_name : string; m_attrs : dict attr }.

(** Python [issubclass(c, base)] *)
Definition issubclass (c base : cls) : bool := existsb (Nat.eqb (c_id base)) (c_mro c).

(** [setattr(module, name, x)] *)
Definition setattr (m : pymodule) (name : string) (x : attr) : pymodule := mk_module (m_name m) (set name x (m_attrs m)).

(** [dir(module)]: sorted names. (The double underscore names every module has are not classes and
    never coincide with class names; they are left out.) *)
Definition dir (m : pymodule) : list string := sorted_names (keys (m_attrs m)).

(** [name.split(".")[-1]] *)
Fixpoint last_part_from (acc : string) (s : string) : string :=
  match s with
  | EmptyString => acc
  | String c s' => if Ascii.eqb c "."%char then last_part_from "" s' else last_part_from (acc ++ String c "") s'
  end.
Definition last_part (s : string) : string := last_part_from "" s.

(** utils.py 593-613 _add_extension *)
Definition add_extension (m : pymodule) (subclass base : cls) (force : bool) : pymodule * result unit :=
  if c_is_base subclass then (m, Ok tt)
  else if issubclass subclass base && negb (Nat.eqb (c_id subclass) (c_id base)) then
    if has (c_name subclass) (m_attrs m) && negb force then (m, Err ValueError)
    else (setattr m (c_name subclass) (AClass subclass), Ok tt)
  else (m, Ok tt).

(** utils.py 585-590, the loop over dir(module2) *)
Fixpoint add_classes (names : list string) (attrs2 : dict attr) (m : pymodule) (base : cls) (force : bool) : pymodule * result unit :=
  match names with
  | [] => (m, Ok tt)
  | x :: names' =>
      match get x attrs2 with
      | Some (AClass c) =>
          let '(m1, r) := add_extension m c base force in
          match r with
          | Ok _ => add_classes names' attrs2 m1 base force
          | Err e => (m1, Err e)
          end
      | _ => add_classes names' attrs2 m base force
      end
  end.

(** utils.py 562-590 add_extensions. Adding a module to itself is not modelled (module2 is a separate
    value). *)
Definition add_extensions (m1 m2 : pymodule) (base : cls) (force : bool) : pymodule * result unit :=
  if has (m_name m2) (m_attrs m1) && negb force then (m1, Err ValueError)
  else add_classes (dir m2) (m_attrs m2) (setattr m1 (last_part (m_name m2)) (AModule (m_name m2))) base force.

(* ------------------------------------------------------------------ *)
(** * Dependency graphs *)

(** What graphviz's Digraph receives: nodes and edges in order of the calls (labels and styles are
    left out). *)
Record graph := mk_graph { g_nodes : list string; g_edges : list (string * string) }.
Definition add_node (a : string) (g : graph) : graph := mk_graph (g_nodes g ++ [a])%list (g_edges g).
Definition add_edge (a b : string) (g : graph) : graph := mk_graph (g_nodes g) (g_edges g ++ [(a, b)])%list.

Section Graph.
  Variable reg : registry.      (* component._plugin_class_registry *)

  (** utils.py 494-501 and 547-557: the loop over the dependencies of a node, which calls the function
      recursively on all dependencies of the plugin in every round. *)
  Fixpoint each_edge (rec : list string -> graph -> list string -> result (graph * list string))
    (edge : string -> graph -> result graph) (skip : string -> bool) (all deps : list string) (g : graph) (seen : list string)
    : result (graph * list string) :=
    match deps with
    | [] => Ok (g, seen)
    | dep :: deps' =>
        if skip dep then each_edge rec edge skip all deps' g seen
        else match edge dep g with
             | Err e => Err e
             | Ok g1 =>
                 match rec all g1 seen with
                 | Err e => Err e
                 | Ok (g2, seen2) => each_edge rec edge skip all deps' g2 seen2
                 end
             end
    end.

  (** utils.py 483-503: the loop over the data names of add_deps_to_graph_tree. *)
  Fixpoint each_name (rec : list string -> graph -> list string -> result (graph * list string)) (names : list string)
    (g : graph) (seen : list string) : result (graph * list string) :=
    match names with
    | [] => Ok (g, seen)
    | d :: names' =>
        if mem d seen then each_name rec names' g seen
        else
          let g1 := add_node d g in
          if String.eqb d "batch_size" then each_name rec names' g1 seen
          else match get d reg with
               | None => Err KeyError
               | Some p =>
                   match each_edge rec (fun dep g => Ok (add_edge d dep g)) (fun _ => false) (p_depends p) (p_depends p) g1 seen with
                   | Err e => Err e
                   | Ok (g2, seen2) => each_name rec names' g2 (seen2 ++ [d])%list
                   end
               end
    end.

  (** utils.py 469-503 add_deps_to_graph_tree; [fuel] is the recursion depth Python still allows. *)
  Fixpoint add_deps_to_graph_tree (fuel : nat) (names : list string) (g : graph) (seen : list string) : result (graph * list string) :=
    match fuel with
    | O => Err RecursionError
    | S n => each_name (add_deps_to_graph_tree n) names g seen
    end.

  (** utils.py 551-552: the edge to the plugin providing the dependency. *)
  Definition plugin_edge (plugin_name dep : string) (g : graph) : result graph :=
    match get dep reg with
    | None => Err KeyError
    | Some q => Ok (add_edge plugin_name (p_name q) g)
    end.

  (** utils.py 526-559: the loop over the data names of add_plugins_to_graph_tree. *)
  Fixpoint each_plugin (rec : list string -> graph -> list string -> result (graph * list string)) (names : list string)
    (g : graph) (seen : list string) : result (graph * list string) :=
    match names with
    | [] => Ok (g, seen)
    | d :: names' =>
        if String.eqb d "batch_size" then each_plugin rec names' g seen
        else match get d reg with
             | None => Err KeyError
             | Some p =>
                 if mem (p_name p) seen then each_plugin rec names' g seen
                 else
                   match each_edge rec (plugin_edge (p_name p)) (fun dep => String.eqb dep "batch_size") (p_depends p) (p_depends p)
                           (add_node (p_name p) g) seen with
                   | Err e => Err e
                   | Ok (g2, seen2) => each_plugin rec names' g2 (seen2 ++ [p_name p])%list
                   end
             end
    end.

  (** utils.py 507-559 add_plugins_to_graph_tree (the label with data names is left out). *)
  Fixpoint add_plugins_to_graph_tree (fuel : nat) (names : list string) (g : graph) (seen : list string) : result (graph * list string) :=
    match fuel with
    | O => Err RecursionError
    | S n => each_plugin (add_plugins_to_graph_tree n) names g seen
    end.
End Graph.
