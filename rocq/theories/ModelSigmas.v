(** Model of errors_to_two_half_norm_sigmas (appletree/utils.py, lines 652 to 675). No proofs in this file.
    Numbers are real; [erf] stands for scipy.special.erf and [root] for scipy.optimize.root, which gives a point
    or no success. *)
From Coq Require Import Reals.
From Verif Require Import Base.
Local Open Scope R_scope.

(** utils.py:673 [1 - chi2.cdf(1, 1)]: the probability that a standard normal variable is more than 1 away from 0. *)
Definition tail_prob (erf : R -> R) : R := 1 - erf (1 / sqrt 2).

(** utils.py:667-671 _to_solve; [x] are the two sigmas, [e] the two errors (positive first). *)
Definition to_solve (erf : R -> R) (e : R * R) (p : R) (x : R * R) : R * R :=
  (fst x / (fst x + snd x) * (1 - erf (fst e / fst x / sqrt 2)) - p / 2,
   snd x / (fst x + snd x) * (1 - erf (snd e / snd x / sqrt 2)) - p / 2).

(** utils.py:652-675; the start of the search is the pair of errors. *)
Definition errors_to_sigmas (erf : R -> R) (root : (R * R -> R * R) -> R * R -> option (R * R)) (e : R * R)
  : result (R * R) :=
  match root (to_solve erf e (tail_prob erf)) e with
  | Some x => Ok x
  | None => Err AssertionError
  end.
