(** Vocabulary for the plots of a chain (C96 to C98). No proofs. *)
From Coq Require Import Reals.
From Verif Require Import Base ModelFloat ModelParameter ModelPlotter.
Local Open Scope string_scope.
Local Open Scope list_scope.

Notation walker := (list R * (fl * fl))%type (only parsing).
Definition coords (s : walker) : list R := fst s.
Definition log_post (s : walker) : fl := fst (snd s).
Definition log_prior_of (s : walker) : fl := snd (snd s).

(** Every iteration has as many walkers, and every walker as many coordinates, as the file says. *)
Definition shaped (b : backend) : Prop :=
  forall it, In it (bk_iters b) -> List.length it = bk_walkers b /\
    forall s, In s it -> List.length (coords s) = bk_params b.

(** The iterations (from 0) that are read: after [d] iterations, the last one of every [t]. *)
Definition recorded (d t i : nat) : bool := Nat.leb (d + t) (i + 1) && Nat.eqb (Nat.modulo (i + 1 - d) t) 0.
Definition iteration (b : backend) (i : nat) : list walker := nth i (bk_iters b) [].
Definition read_iterations (b : backend) (d t : nat) : list nat :=
  filter (recorded d t) (seq 0 (List.length (bk_iters b))).

(** Those in which every walker has a finite log posterior. *)
Definition clean (b : backend) (i : nat) : bool := forallb (fun s => is_fin (log_post s)) (iteration b i).
Definition kept (b : backend) (d t : nat) : list nat := filter (clean b) (read_iterations b d t).

(** All samples read, one iteration after the other, and those with a finite log posterior. *)
Definition samples (b : backend) (d t : nat) : list walker :=
  List.concat (map (iteration b) (read_iterations b d t)).
Definition finite_samples (b : backend) (d t : nat) : list walker :=
  filter (fun s => is_fin (log_post s)) (samples b d t).

(** What is plotted against the iterations for a sample: the coordinates, the posterior, the prior. *)
Definition shown (s : walker) : list fl := map Fin (coords s) ++ [log_post s; log_prior_of s].

(** The sampler's record: a sample with a finite posterior has a finite prior. *)
Definition finite_prior (b : backend) : Prop :=
  forall it s, In it (bk_iters b) -> In s it -> is_fin (log_post s) = true -> is_fin (log_prior_of s) = true.

(** The points of a chain, one list of walkers for every kept iteration. *)
Definition kept_chain (b : backend) (d t : nat) : list (list (list R)) :=
  map (fun i => map coords (iteration b i)) (kept b d t).

(** Walker [j] is at another point in row [i + 1] than in row [i]. *)
Definition moved (chain : list (list (list R))) (i j : nat) : bool :=
  if list_eq_dec Req_EM_T (nth j (nth (S i) chain []) []) (nth j (nth i chain []) []) then false else true.
(** The number of such steps among [n] steps, the first of them from row [a]; and for all walkers. *)
Definition moves (chain : list (list (list R))) (a n j : nat) : nat :=
  List.length (filter (fun i => moved chain i j) (seq a n)).
Definition all_moves (chain : list (list (list R))) (walkers a n : nat) : nat :=
  list_sum (map (moves chain a n) (seq 0 walkers)).

(** A prior that can be drawn: its arguments are those of its type, with a positive width. *)
Definition drawable (sigmas : fl -> fl -> result (fl * fl)) (s : setting) : Prop :=
  exists ty args, s_type s = Some ty /\ s_args s = Some args /\
    (ty = "free"
     \/ (ty = "norm" /\ List.length args = 2 /\ exists m sd, get "mean" args = Some (Fin m) /\
          get "std" args = Some (Fin sd) /\ (0 < sd)%R)
     \/ (ty = "uniform" /\ List.length args = 2 /\ exists lo hi, get "lower" args = Some (Fin lo) /\
          get "upper" args = Some (Fin hi) /\ (lo < hi)%R)
     \/ (ty = "twohalfnorm" /\ List.length args = 3 /\ exists mu ep en sp sn, get "mu" args = Some (Fin mu) /\
          get "sigma_pos" args = Some ep /\ get "sigma_neg" args = Some en /\
          sigmas ep en = Ok (Fin sp, Fin sn) /\ (0 < sp)%R /\ (0 < sn)%R)).

Local Open Scope R_scope.

(** The autocovariance of a series at a lag (times the length), and the autocorrelation. *)
Definition dev (x : list R) (j : nat) : R := nth j x 0 - fold_right Rplus 0 x / INR (List.length x).
Definition autocov (x : list R) (k : nat) : R :=
  fold_right Rplus 0 (map (fun j => dev x j * dev x (j + k)) (seq 0 (List.length x - k))).
Definition autocorr (x : list R) (k : nat) : R := autocov x k / autocov x 0.

(** The average over some series, and the integrated autocorrelation time up to a lag. *)
Definition mean_autocorr (y : list (list R)) (k : nat) : R :=
  fold_right Rplus 0 (map (fun x => autocorr x k) y) / INR (List.length y).
Definition tau (y : list (list R)) (m : nat) : R :=
  1 + 2 * fold_right Rplus 0 (map (mean_autocorr y) (seq 1 m)).

(** Not all entries are the same. *)
Definition varies (x : list R) : Prop := exists a b, In a x /\ In b x /\ a <> b.

(** Coordinate [i] of walker [j] in the first [n] rows of a chain. *)
Definition series (chain : list (list (list R))) (i n j : nat) : list R :=
  map (fun k => nth i (nth j (nth k chain []) []) 0) (seq 0 (Nat.min n (List.length chain))).
