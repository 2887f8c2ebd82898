(** Vocabulary for the property of rounding (C116). No proofs. *)
From Coq Require Import Reals ZArith List.
From Verif Require Import Base ModelFloat ModelRound SpecHist.
Local Open Scope R_scope.
Local Open Scope list_scope.

(** The numbers of a sum, and how deep it is. *)
Fixpoint leaves (t : tree) : list R := match t with Leaf w => [w] | Node l r => leaves l ++ leaves r end.
Fixpoint depth (t : tree) : nat := match t with Leaf _ => 0 | Node l r => S (Nat.max (depth l) (depth r)) end.
Fixpoint total (l : list R) : R := match l with [] => 0 | x :: l' => x + total l' end.

(** Half a unit in the last place, relative. *)
Definition unit_roundoff (p : nat) : R := / 2 ^ p.

Definition a_whole_number (x : R) : Prop := exists n : nat, x = INR n.

(** A term of the log likelihood and its size. *)
Definition poisson_term (d m : R) : R := d * ln m - m.
Definition poisson_size (d m : R) : R := d * Rabs (ln m) + m.

(** The weights of the events of a bin are [ws]. *)
Definition bin_weights (bins : list fl) (events : list (fl * fl)) (i : nat) (ws : list R) : Prop :=
  map snd (filter (fun e => in_bin (edge bins i) (edge bins (S i)) (fst e)) events) = map Fin ws.
