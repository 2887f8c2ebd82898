(** Vocabulary for the properties of utils.py. *)
From Coq Require Import Reals.
From Verif Require Import Base ModelComponent ModelUtils.
Local Open Scope string_scope.

(** The number a text of the form .ddd stands for. *)
Inductive decimals : string -> R -> Prop :=
| dec_end : decimals "" 0
| dec_digit : forall d s x, d < 10 -> decimals s x -> decimals (String (ascii_of_nat (48 + d)) s) ((INR d + x) / 10).

Definition denotes (s : string) (x : R) : Prop := exists s', s = "." ++ s' /\ decimals s' x.

(** The class an extension would add to module1: a proper subclass of the base, not marked as base. *)
Definition offered (m2 : pymodule) (base c : cls) : Prop :=
  (exists name, get name (m_attrs m2) = Some (AClass c)) /\ c_is_base c = false /\ In (c_id base) (c_mro c) /\ c_id c <> c_id base.

Section Reach.
  Variable reg : registry.

  (** Data that the requested data need, directly or through others. *)
  Inductive needed (names : list string) : string -> Prop :=
  | need_asked : forall d, In d names -> needed names d
  | need_dep : forall a p b, needed names a -> a <> "batch_size" -> get a reg = Some p -> In b (p_depends p) -> needed names b.

  (** Everything needed is registered and no data needs itself: a rank decreases along dependencies. *)
  Definition well_founded_registry (rank : string -> nat) : Prop :=
    forall a p b, get a reg = Some p -> In b (p_depends p) -> b <> "batch_size" -> rank b < rank a.
  Definition all_registered (names : list string) : Prop :=
    forall d, needed names d -> d <> "batch_size" -> exists p, get d reg = Some p.
End Reach.
