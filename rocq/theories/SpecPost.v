(** Vocabulary for reading a chain (C103). *)
From Coq Require Import Reals.
From Verif Require Import Base ModelFloat ModelLikelihood.
Local Open Scope list_scope.

(** At least half of the numbers are not above [m], and at least half are not below. *)
Definition halves (l : list R) (m : R) : Prop :=
  List.length l <= 2 * List.length (filter (fun x => if Rle_dec x m then true else false) l) /\
  List.length l <= 2 * List.length (filter (fun x => if Rle_dec m x then true else false) l).

(** The median: it halves the numbers, and lies in the middle of everything that does. *)
Definition is_median (l : list R) (m : R) : Prop :=
  halves l m /\ forall y, halves l y -> halves l (2 * m - y)%R.

(** The values of the [j]-th parameter in the samples of a chain. *)
Definition column (c : list (list fl * fl)) (j : nat) (rs : list R) : Prop :=
  Forall2 (fun s r => nth_error (fst s) j = Some (Fin r)) c rs.

(** The events in the columns of a simulation. *)
Definition events (cols : list (list fl)) (rows : list (list fl)) : Prop :=
  (forall c, In c cols -> List.length c = List.length rows) /\
  forall i r, nth_error rows i = Some r -> map (fun c => nth_error c i) cols = map Some r.
