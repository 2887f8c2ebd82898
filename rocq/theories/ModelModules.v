(** Model of ComponentSim.register_all (component.py:247-265): the classes of a module, or of lists of
    modules. No proofs in this file. *)
From Verif Require Import Base ModelShare ModelConfig ModelComponent ModelParameter.
Local Open Scope list_scope.

(** A module by its attributes, in the order in which they were made: [Some p] is a class that is a
    subclass of Plugin (Plugin itself included), [None] anything else. The argument of register_all is a
    module or a list or tuple of such arguments. *)
Inductive modules :=
| One (attrs : dict (option plugin))
| Many (l : list modules).

(** component.py:259-265: [dir(module)] is sorted by name. *)
Definition module_classes (attrs : dict (option plugin)) : list plugin :=
  flat_map (fun n => match get n attrs with Some (Some p) => [p] | _ => [] end) (sorted_names (keys attrs)).

(** component.py:247-265 register_all; an exception ends it. *)
Fixpoint register_all (m : modules) (reg : registry) : registry * result unit :=
  match m with
  | One attrs => register (module_classes attrs) reg
  | Many l =>
      (fix each (l : list modules) (reg : registry) : registry * result unit :=
         match l with
         | [] => (reg, Ok tt)
         | x :: l' =>
             let '(reg1, r) := register_all x reg in
             match r with
             | Ok _ => each l' reg1
             | Err e => (reg1, Err e)
             end
         end) l reg
  end.
