(** Vocabulary for register_all (C122). No proofs. *)
From Verif Require Import Base ModelShare ModelConfig ModelComponent SpecParameter ModelModules.
Local Open Scope list_scope.

(** [p] is the class that the module has under the name [n]. *)
Definition has_class (attrs : dict (option plugin)) (n : string) (p : plugin) : Prop := get n attrs = Some (Some p).
(** The last name, in alphabetical order, of a class that provides [d] is [n], the class is [p]. *)
Definition final_provider (attrs : dict (option plugin)) (d n : string) (p : plugin) : Prop :=
  has_class attrs n p /\ In d (p_provides p) /\
  forall n' q, has_class attrs n' q -> In d (p_provides q) -> n' = n \/ before n' n.
(** A module in a list of lists of modules. *)
Inductive module_in : dict (option plugin) -> modules -> Prop :=
| in_one attrs : module_in attrs (One attrs)
| in_many attrs m l : In m l -> module_in attrs m -> module_in attrs (Many l).
