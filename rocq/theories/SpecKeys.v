(** Vocabulary for the keys made from the clock (C126). No proofs. *)
From Coq Require Import Reals ZArith List.
Local Open Scope R_scope.

(** Seconds. *)
Definition micro : R := / 1000000.

(** The product of the time in seconds and 10^6 in floats of 53 bits: until the year 2038 it is below 2^51 and so a
    multiple of at most 1/4. *)
Definition rounds (rnd : R -> R) : Prop := forall x, 0 <= x < IZR (2 ^ 51) -> Rabs (rnd x - x) <= / 8.
Definition clock_time (t : R) : Prop := / 1000000 <= t < IZR (2 ^ 31).

(** Successive calls at least 1.25 microseconds apart. *)
Fixpoint apart (ts : list R) : Prop :=
  match ts with
  | t :: ((t' :: _) as rest) => t' - t >= 5 / 4 * micro /\ apart rest
  | _ => True
  end.
