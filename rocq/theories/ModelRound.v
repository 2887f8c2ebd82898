(** Rounding of floating point numbers, for the sums that make histograms and log likelihoods. The rest
    of the model computes with exact numbers (ModelFloat.v). No proofs. *)
From Coq Require Import Reals ZArith List.
From Verif Require Import Base ModelFloat ModelHist.
Local Open Scope R_scope.
Local Open Scope list_scope.

(** IEEE 754 round to nearest, ties to even, with a significand of [p] bits: p is 24 for the float32 of
    jax and 53 if x64 is enabled (randgen.py:27-32 tells the two apart). The range of exponents is not
    limited, that is, neither overflow nor subnormal numbers. *)
Definition exponent (x : R) : Z := Int_part (ln x / ln 2).
Definition half_even (y : R) : Z :=
  let f := Int_part y in
  if Rlt_dec (y - IZR f) (/ 2) then f
  else if Rlt_dec (/ 2) (y - IZR f) then (f + 1)%Z
  else if Z.even f then f else (f + 1)%Z.
Definition round_pos (p : nat) (x : R) : R :=
  let e := (exponent x - Z.of_nat p + 1)%Z in IZR (half_even (x / powerRZ 2 e)) * powerRZ 2 e.
Definition round_to (p : nat) (x : R) : R :=
  if Rlt_dec 0 x then round_pos p x else if Rlt_dec x 0 then - round_pos p (- x) else 0.

(** A sum in some order: XLA does not promise one for hist.at[ind].add and for jnp.sum, and numpy adds in
    pairs. *)
Inductive tree := Leaf (w : R) | Node (l r : tree).
Fixpoint rounded_sum (p : nat) (t : tree) : R :=
  match t with Leaf w => w | Node l r => round_to p (rounded_sum p l + rounded_sum p r) end.

(** Adding numbers one after the other. *)
Definition rounded_add (p : nat) (a b : fl) : fl :=
  match fadd a b with Fin r => Fin (round_to p r) | x => x end.

(** hist.py:17-34 make_hist_irreg_bin_1d with rounded additions in the order of the events. *)
Fixpoint rounded_at_add (p : nat) (i : nat) (w : fl) (h : list fl) : list fl :=
  match h, i with
  | [], _ => []
  | x :: h', O => rounded_add p x w :: h'
  | x :: h', S i' => x :: rounded_at_add p i' w h'
  end.
Definition rounded_hist_1d (p : nat) (bins : list fl) (events : list (fl * fl)) : list fl :=
  trim (fold_left (fun h e => rounded_at_add p (searchsorted bins (fst e)) (snd e) h) events
          (repeat (Fin 0) (List.length bins + 1)%nat)).

(** likelihood.py:371: a term d * log(m) - m of the log likelihood, from the computed logarithm [l] of m. *)
Definition rounded_term (p : nat) (d m l : R) : R := round_to p (round_to p (d * l) - m).
