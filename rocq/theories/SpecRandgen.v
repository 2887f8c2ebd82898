(** Vocabulary for the properties of the random samplers and of the plugins: no reference to how a
    sampler works. *)
From Coq Require Import Reals ZArith.
From Verif Require Import Base ModelFloat ModelRandgen.
Local Open Scope R_scope.

(** ** Reading off a run *)
Definition result {A} (m : M A) (k : key) : A := fst (fst (m k)).
Definition next_key {A} (m : M A) (k : key) : key := snd (fst (m k)).
(** Every key that was split or drawn from, in order. *)
Definition consumed {A} (m : M A) (k : key) : list key := snd (m k).

(** [u] was obtained from [k] by splitting (or is [k]). *)
Definition descends (k u : key) : Prop := exists path, u = (k ++ path)%list.

(** A sampler behaves as jax asks: no key is consumed twice, all of them come from the given key, the
    returned key comes from the given key too, and nothing that can be derived from the returned key
    has been consumed. *)
Definition well_keyed {A} (m : M A) : Prop := forall k,
  NoDup (consumed m k) /\
  (forall u, In u (consumed m k) -> descends k u) /\
  descends k (next_key m k) /\
  (forall u, In u (consumed m k) -> ~ descends (next_key m k) u).

(** ** Facts about the distributions in jax.random that the properties rely on: ranges only. *)
Record lawful (o : oracle) : Prop := {
  law_unif : forall k e, 0 <= o_unif o k e < 1;
  law_pois : forall k e lam, 0 <= lam -> (0 <= o_pois o k e (Fin lam))%Z;
  law_pois_0 : forall k e, o_pois o k e (Fin 0) = 0%Z;
  law_gamma : forall k e a, 0 < a -> exists g, o_gamma o k e (Fin a) = Fin g /\ 0 <= g;
  law_binom : forall k e n p, (0 <= n)%Z -> 0 <= p <= 1 -> (0 <= o_binom o k e n (Fin p) <= n)%Z;
  law_erf_bound : forall x, -1 <= o_erf o x <= 1;
  law_erf_sign : forall x, 0 <= x -> 0 <= o_erf o x }.

(** Whole numbers counted from 0 to n that satisfy a predicate. *)
Fixpoint tally (P : nat -> bool) (n : nat) : nat :=
  match n with O => 0%nat | S m => (tally P m + (if P m then 1 else 0))%nat end.

(** [x] lies in [lo, hi] *)
Definition within (lo hi : R) (x : fl) : Prop := exists r, x = Fin r /\ lo <= r <= hi.
Definition probability (x : fl) : Prop := within 0 1 x.

(** The samplers of randgen.py except twohalfnorm. *)
Inductive sampler (o : oracle) : forall A, M A -> Prop :=
| s_uniform vmin vmax : sampler o _ (uniform o vmin vmax)
| s_poisson lam : sampler o _ (poisson o lam)
| s_gamma alpha beta : sampler o _ (gamma o alpha beta)
| s_normal mean std : sampler o _ (normal o mean std)
| s_truncate_normal mean std vmin vmax : sampler o _ (truncate_normal o mean std vmin vmax)
| s_skewnormal a loc scale : sampler o _ (skewnormal o a loc scale)
| s_bernoulli p : sampler o _ (bernoulli o p)
| s_binomial_hybrid threshold p n : sampler o _ (binomial_hybrid o threshold p n)
| s_binomial mode size p n : sampler o _ (binomial o mode size p n)
| s_negative_binomial p n : sampler o _ (negative_binomial o p n)
| s_generalized_poisson size fuel lam eta : sampler o _ (generalized_poisson o size fuel lam eta).

(** Programs that call samplers one after the other, each with the key returned by the one before;
    what is called next may depend on what was drawn. *)
Inductive program (o : oracle) (A : Type) : M A -> Prop :=
| p_return a : program o A (ret a)
| p_call B (m : M B) (f : B -> M A) : sampler o B m -> (forall b, program o A (f b)) -> program o A (bind m f).

(** The value jax forms from a uniform number and a normal number for the two-half-normal. *)
Definition two_half (u z mu sigma_pos sigma_neg : R) : R :=
  if Rlt_dec u (sigma_pos / (sigma_pos + sigma_neg)) then mu + Rabs z * sigma_pos else mu - Rabs z * sigma_neg.

(** jax computes its normal numbers from the very uniform numbers of the same key, by an increasing
    function [Q] that is zero at one half. *)
Definition same_stream (o : oracle) (Q : R -> R) : Prop :=
  (forall k e, o_norm o k e = Q (o_unif o k e)) /\ Q (/ 2) = 0 /\ (forall x y, x < y -> Q x < Q y).

(** All finite and not negative. *)
Definition finite_nonneg (x : fl) : Prop := exists r, x = Fin r /\ 0 <= r.
