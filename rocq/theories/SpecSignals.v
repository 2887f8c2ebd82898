(** Vocabulary for the properties of the reconstructed signals: chains of plugins and averages. *)
From Coq Require Import Reals ZArith.
From Verif Require Import Base ModelFloat ModelRandgen ModelPlugins SpecRandgen.
Local Open Scope R_scope.

(** The plugins from the number of photons to the corrected S1, each on the key returned by the one
    before. The light map is read at the true positions, the correction at the reconstructed ones. *)
Definition s1_chain (o : oracle) (mode : binmode) (size : nat) (g1 p_dpe : fl) (lce corr : fl -> fl -> fl -> fl) (bias smear : fl -> fl)
    (num_photon : arr Z) (x y z rx ry rz : arr fl) : M (arr fl) :=
  s1_lce <- S1LCE lce x y z;;
  phd <- PhotonDetection o mode size g1 p_dpe num_photon s1_lce;;
  pe <- S1PE o mode size p_dpe phd;;
  area <- S1 o bias smear pe;;
  s1_correction <- S1Correction corr rx ry rz;;
  cS1 area s1_correction.

(** The same from the number of electrons to the corrected S2, for given survival probabilities. *)
Definition s2_chain (o : oracle) (mode : binmode) (size : nat) (g2 gain p_dpe : fl) (rel lce corr : fl -> fl -> fl) (bias smear : fl -> fl)
    (num_electron : arr Z) (surv x y rx ry : arr fl) : M (arr fl) :=
  s2_lce <- S2LCE lce x y;;
  drifted <- ElectronDrifted o mode size num_electron surv;;
  pe <- S2PE o mode size rel g2 gain p_dpe drifted s2_lce x y;;
  area <- S2 o bias smear pe;;
  s2_correction <- S2Correction corr rx ry;;
  cS2 area s2_correction surv.

(** Finite distributions: weights and values. *)
Definition dist (A : Type) := list (R * A).
Definition average {A} (d : dist A) (f : A -> R) : R := fold_right (fun wx s => fst wx * f (snd wx) + s) 0 d.
Definition total {A} (d : dist A) : Prop := (forall w x, In (w, x) d -> 0 <= w) /\ average d (fun _ => 1) = 1.

(** What jax.random.binomial draws from one key at one position, as a function of its arguments, is
    random; for [n] and [p] it lies between 0 and [n] and is [n * p] on average. *)
Definition binomial_like (d : dist (Z -> fl -> Z)) (n : Z) (p : R) : Prop :=
  total d /\ (forall w b, In (w, b) d -> (0 <= b n (Fin p) <= n)%Z) /\ average d (fun b => IZR (b n (Fin p))) = IZR n * p.
(** The same for jax.random.poisson. *)
Definition poisson_like (d : dist (fl -> Z)) (lam : R) : Prop :=
  total d /\ (forall w b, In (w, b) d -> (0 <= b (Fin lam))%Z) /\ average d (fun b => IZR (b (Fin lam))) = lam.
(** And for jax.random.normal. *)
Definition normal_like (d : dist R) : Prop := total d /\ average d (fun z => z) = 0.
