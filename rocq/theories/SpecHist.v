(** Vocabulary for the histogram properties (C11-C13, C53). No proofs. *)
From Coq Require Import Reals.
From Verif Require Import Base ModelFloat ModelHist.

(** Non-decreasing edges without NaN (they may be infinite). *)
Fixpoint sorted (l : list fl) : Prop :=
  match l with
  | [] => True
  | e :: l' => e <> NaN /\ (forall x, In x l' -> fle e x = true) /\ sorted l'
  end.

(** The edge number [i]. *)
Definition edge (edges : list fl) (i : nat) : fl := nth i edges NaN.

(** [x] is in the bin (lo, hi]; never true for a NaN sample. *)
Definition in_bin (lo hi x : fl) : bool := flt lo x && fle x hi.

(** The total weight of the events satisfying [P]. *)
Definition weight_of {E} (w : E -> fl) (P : E -> bool) (events : list E) : fl :=
  fsum (map w (filter P events)).

(** Entry of a histogram; [NaN] out of range. *)
Definition entry (h : list fl) (i : nat) : fl := nth i h NaN.
Definition entry2 (h : list (list fl)) (i j : nat) : fl := entry (nth i h []) j.

(** [x] is in [lo, hi), or in [lo, hi] if that is the last bin. *)
Definition in_bin_left (last : bool) (lo hi x : fl) : bool :=
  fle lo x && (flt x hi || (last && fle x hi)).
