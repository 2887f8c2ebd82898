(** Vocabulary for the distribution of generated energies and positions (C110). No proofs.
    Distributions are stated as exact sets of the uniform random numbers, so no measure theory is
    needed: an event that is the same as "u <= c" for a uniform u in [0, 1) has probability c. *)
From Coq Require Import Reals.
From Verif Require Import Base SpecInterp.
Local Open Scope R_scope.

(** [x] computed from the random number [u] is at most [c] for exactly the fraction [p] of the
    random numbers. *)
Definition at_most (x c u p : R) : Prop := x <= c <-> u <= p.

(** [u] lies in the interval (a, b]. *)
Definition between (a b u : R) : Prop := a < u <= b.

(** The distribution function of a table: F_i at x_i, straight lines in between, all of it between
    the first and the last entry. *)
Definition table_distribution (F xs : list R) (x u : R) : Prop :=
  (forall c, c < ent xs 0 -> ~ x <= c) /\
  (forall c, ent xs (List.length xs - 1) <= c -> x <= c) /\
  (forall i c, (S i < List.length xs)%nat -> ent xs i <= c < ent xs (S i) ->
     at_most x c u (line (ent xs i) (ent F i) (ent xs (S i)) (ent F (S i)) c)).

(** Middle of interval number [i]. *)
Definition middle (x : list R) (i : nat) : R := (ent x i + ent x (S i)) / 2.
(** Part of the area below the polygon that lies left of point [i]. *)
Definition share (x p : list R) (i : nat) : R := area x p i / area x p (List.length x - 1).

(** Volume of the part of a cylinder with heights in (a, b], radii in (r1, r2] and azimuths in (t1, t2]. *)
Definition sector (a b r1 r2 t1 t2 : R) : R := (b - a) * ((t2 - t1) / 2 * (r2 * r2 - r1 * r1)).
Definition cylinder (z0 z1 r : R) : R := (z1 - z0) * (PI * (r * r)).
