(** Vocabulary for the mean yields (C111) and for the fluctuations of quanta (C112): the formulas of
    NEST v2 as functions on real numbers, and moments. No reference to the plugins. *)
From Coq Require Import Reals ZArith.
From Verif Require Import Base SpecSignals.
Local Open Scope R_scope.

(** ** Nuclear recoils *)
(** Part that survives a threshold at [s]: 1/2 at x = s, sharper for larger [k]. *)
Definition threshold (x s k : R) : R := 1 - 1 / (1 + Rpower (x / s) k).
(** Thomas-Imel box parameter at field [F] and density [D]. *)
Definition nr_box (gamma delta D F : R) : R := gamma * Rpower F delta * Rpower (D / (29 / 10)) (3 / 10).
Definition nr_quanta (alpha beta E : R) : R := alpha * Rpower E beta.
(** Electrons per keV, photons per keV. *)
Definition nr_charge (box epsilon zeta eta E : R) : R := threshold E zeta eta / (box * sqrt (E + epsilon)).
Definition nr_light (quanta charge theta iota E : R) : R := Rmax ((quanta / E - charge) * threshold E theta iota) 0.

(** ** Electronic recoils *)
(** A step from [a] to [b] around [s]. *)
Definition step (a b x s k p : R) : R := b + (a - b) / Rpower (1 + Rpower (x / s) k) p.
Definition er_m1 (m1 F : R) : R := step m1 (3066 / 100) F (73855 / 1000) (20318 / 10000) (41883 / 100000).
Definition er_m3 (m3 F : R) : R := m3 + 13946236 / 100000000 * (ln F / ln 10).
Definition er_m4 (m4 F : R) : R := step m4 (182217496 / 100000000) F (14465029656 / 100000000) (-280532006 / 100000000) 1.
Definition er_m7 (m7 F : R) : R := step m7 (702921301 / 100000000) F (25648156448 / 100000000) (129119251 / 100000000) 1.
Definition er_m10 (m10 F : R) : R := step m10 (508273937 / 10000000000) F (139260460 / 1000000) (-65763592 / 100000000) 1.
(** Two steps in energy, the first from [m2] to [m1], the second from nothing to what is left of the
    ions: 1 / (w (1 + ratio)). *)
Definition er_charge (m1 m2 m3 m4 m7 m8 m9 m10 w ratio E F : R) : R :=
  step m2 (er_m1 m1 F) E (er_m3 m3 F) (er_m4 m4 F) m9 +
  step 0 (1 / (w * (1 + ratio)) - er_m1 m1 F) E (er_m7 m7 F) m8 (er_m10 m10 F).
(** Excitons per ion. *)
Definition er_ratio (erf : R -> R) (D E : R) : R := (67366 / 1000000 + 39693 / 1000000 * D) * erf (E / 20).

(** ** Fluctuations *)
(** Bell curve of height [A] around [c]. *)
Definition bell (A c w x : R) : R := A * exp (- ((x - c) ^ 2 / (2 * w ^ 2))).
(** Variance of the number of electrons left by [n] ions that recombine with probability [r], with an
    extra relative width [om]. *)
Definition ion_variance (r om n : R) : R := n * r * (1 - r) + (om * n) ^ 2.

(** A standard normal number as far as first and second moments go. *)
Definition standard (d : dist R) : Prop := normal_like d /\ average d (fun z => z * z) = 1.
(** The function [f] of such a number has mean [m] and variance [v]. *)
Definition has_moments (f : R -> R) (m v : R) : Prop :=
  forall d, standard d -> average d f = m /\ average d (fun z => (f z - m) * (f z - m)) = v.
