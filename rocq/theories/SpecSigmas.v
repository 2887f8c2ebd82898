(** Vocabulary for the widths of a two-half-normal distribution (C99). *)
From Coq Require Import Reals.
From Verif Require Import Base ModelFloat ModelTwoHalf.
Local Open Scope R_scope.

(** The error function: its derivative, its value at 0 and its limit. *)
Definition is_erf (erf : R -> R) : Prop :=
  (forall x, derivable_pt_lim erf x (2 / sqrt PI * exp (- (x * x)))) /\ erf 0 = 0 /\
  (forall eps, 0 < eps -> exists M, forall x, M < x -> Rabs (erf x - 1) < eps).

(** A root of a function of two numbers that is undefined where one of them or their sum is zero. *)
Definition is_root (f : R * R -> R * R) (x : R * R) : Prop :=
  fst x <> 0 /\ snd x <> 0 /\ fst x + snd x <> 0 /\ f x = (0, 0).

(** A root finder whose success means a root. *)
Definition finds_roots (root : (R * R -> R * R) -> R * R -> option (R * R)) : Prop :=
  forall f x0 x, root f x0 = Some x -> is_root f x.

(** [F] is the distribution function of the density [d]. *)
Definition distribution (d F : R -> R) : Prop :=
  (forall x, derivable_pt_lim F x (d x)) /\
  (forall eps, 0 < eps -> exists M, forall x, x < M -> Rabs (F x) < eps).

(** The density of a standard normal variable. *)
Definition normal_density (x : R) : R := exp (- (x * x) / 2) / sqrt (2 * PI).

(** [d] is the density that TwoHalfNorm.logpdf gives. *)
Definition two_half_density (mu sp sn : R) (d : R -> R) : Prop :=
  forall x, exists l, twohalf_logpdf (Fin x) (Fin mu) (Fin sp) (Fin sn) = Ok (Fin l) /\ d x = exp l.
