(** Vocabulary for the interpolation properties (C31, C33-C38, C55, C56). No proofs. *)
From Coq Require Import Reals ZArith.
From Verif Require Import Base ModelInterp.
Local Open Scope R_scope.

(** Entry [i] of a list of numbers. *)
Definition ent (l : list R) (i : nat) : R := nth i l 0.

Definition increasing (l : list R) : Prop :=
  forall i j, (i < j < List.length l)%nat -> ent l i < ent l j.
Definition non_decreasing (l : list R) : Prop :=
  forall i j, (i <= j < List.length l)%nat -> ent l i <= ent l j.

(** The straight line through two points. *)
Definition line (x0 y0 x1 y1 x : R) : R := y0 + (x - x0) / (x1 - x0) * (y1 - y0).

(** A sensible axis: at least two nodes, lower below upper. *)
Definition proper_axis (a : axis) : Prop := (2 <= a_n a)%nat /\ a_lo a < a_hi a.
Definition on_axis (a : axis) (i : Z) : Prop := (0 <= i < Z.of_nat (a_n a))%Z.
(** Position of node [i]: equally spaced between the bounds. *)
Definition place (a : axis) (i : Z) : R := a_lo a + IZR i * ((a_hi a - a_lo a) / (INR (a_n a) - 1)).
(** The point of the box closest to x. *)
Definition into (a : axis) (x : R) : R := if Rlt_dec x (a_lo a) then a_lo a else if Rlt_dec (a_hi a) x then a_hi a else x.

(** [y] lies between the smallest and the largest of the values. *)
Definition among (y : R) (vs : list R) : Prop :=
  forall lo hi, (forall v, In v vs -> lo <= v <= hi) -> lo <= y <= hi.

(** [y] is the average of the values [vs] with weights proportional to [1/d]. *)
Definition inverse_weighted (ds vs : list R) (y : R) : Prop :=
  exists ws, List.length ws = List.length ds /\ (forall w, In w ws -> 0 < w) /\ sumR ws = 1 /\
    y = sumR (map (fun p => fst p * snd p) (combine ws vs)) /\
    (forall i j, (i < List.length ds)%nat -> (j < List.length ds)%nat -> ent ws i * ent ds i = ent ws j * ent ds j).

(** Position of node [i] of an axis with a logarithmic or linear scale. *)
Definition scaled_place (is_log : bool) (lo hi : R) (n : nat) (i : Z) : R :=
  if is_log then lo * Rpower (hi / lo) (IZR i / (INR n - 1)) else lo + IZR i * ((hi - lo) / (INR n - 1)).
(** Bounds of an axis: increasing, and representable positive numbers if logarithmic. *)
Definition proper_bounds (is_log : bool) (lo hi : R) : Prop :=
  lo < hi /\ (is_log = true -> float_pos_min <= lo /\ hi <= float_pos_max).

(** Distances are kept between the smallest and largest positive single precision number. *)
Definition limited (d : R) : R := Rmin (Rmax d float_pos_min) float_pos_max.
Definition away2 (ax ay : axis) (x y : R) (i j : Z) : R := limited (sqrt ((place ax i - x) ^ 2 + (place ay j - y) ^ 2)).
Definition away3 (ax ay az : axis) (x y z : R) (i j k : Z) : R :=
  limited (sqrt ((place ax i - x) ^ 2 + (place ay j - y) ^ 2 + (place az k - z) ^ 2)).

(** Area below the polygon through the points, up to point [k] (trapezoid rule). *)
Fixpoint area (x p : list R) (k : nat) : R :=
  match k with
  | O => 0
  | S k' => area x p k' + (ent x (S k') - ent x k') * ((ent p k' + ent p (S k')) / 2)
  end.
