(** Vocabulary for the distributions of the samplers (C113): probabilities, independent draws, moments.
    No reference to how a sampler works. *)
From Coq Require Import Reals ZArith.
From Verif Require Import Base ModelFloat SpecSignals.
Local Open Scope R_scope.

Definition chance {A} (d : dist A) (P : A -> bool) : R := average d (fun x => if P x then 1 else 0).
Definition below (p u : R) : bool := if Rlt_dec u p then true else false.
(** A random number that is below [p] with probability [p]. *)
Definition uniform_at (d : dist R) (p : R) : Prop := total d /\ chance d (below p) = p.

(** [n] independent draws. *)
Fixpoint draws {A} (d : dist A) (n : nat) : dist (list A) :=
  match n with
  | O => [(1, [])]
  | S m => flat_map (fun wx => map (fun wl => (fst wx * fst wl, snd wx :: snd wl)) (draws d m)) d
  end.

(** Pascal's triangle and the binomial probabilities. *)
Fixpoint choose (n k : nat) : nat :=
  match n, k with
  | _, O => 1
  | O, S _ => 0
  | S n', S k' => choose n' k' + choose n' k
  end.
Definition binomial_pmf (n : nat) (p : R) (j : nat) : R := INR (choose n j) * p ^ j * (1 - p) ^ (n - j).

(** The moments of a standard normal number up to the sixth. *)
Record gaussian (d : dist R) : Prop := {
  g_total : total d;
  g_1 : average d (fun z => z) = 0;
  g_2 : average d (fun z => z ^ 2) = 1;
  g_3 : average d (fun z => z ^ 3) = 0;
  g_4 : average d (fun z => z ^ 4) = 3;
  g_5 : average d (fun z => z ^ 5) = 0;
  g_6 : average d (fun z => z ^ 6) = 15 }.

(** What jax.random.poisson gives for the mean [lam] has mean and variance [lam]. *)
Definition poisson_moments (d : dist (fl -> Z)) (lam : R) : Prop :=
  poisson_like d lam /\ average d (fun b => (IZR (b (Fin lam)) - lam) ^ 2) = lam.
(** What jax.random.gamma gives for the shape [a] is not negative and has mean and variance [a]. *)
Definition number (x : fl) : R := match x with Fin r => r | _ => 0 end.
Definition gamma_moments (d : dist (fl -> fl)) (a : R) : Prop :=
  total d /\ (forall w g, In (w, g) d -> exists x, g (Fin a) = Fin x /\ 0 <= x) /\
  average d (fun g => number (g (Fin a))) = a /\ average d (fun g => (number (g (Fin a)) - a) ^ 2) = a.

(** A family in which each of [alive] members has [eta] children on average: [born] have been born so
    far, each element of the list is one more generation. *)
Fixpoint progeny (eta : R) (alive born : Z) (generations : list (fl -> Z)) : Z :=
  match generations with
  | [] => born
  | b :: bs => let children := b (Fin (eta * IZR alive)) in progeny eta children (born + children)%Z bs
  end.
