(** Vocabulary for the property about the picture of a histogram with irregular bins. *)
From Coq Require Import Reals.
From Verif Require Import Base ModelFloat ModelIrregPlot SpecHist.

(** The shapes described in the documentation of plot_irreg_histogram_2d: [n] columns of [m] bins. *)
Definition shaped (n m : nat) (bins_x : list fl) (bins_y hist : list (list fl)) : Prop :=
  List.length bins_x = n + 1 /\
  List.length bins_y = n /\ (forall r, In r bins_y -> List.length r = m + 1) /\
  List.length hist = n /\ (forall r, In r hist -> List.length r = m).

(** All numbers are finite. *)
Definition finite_list (l : list fl) : Prop := forall x, In x l -> exists r, x = Fin r.
Definition finite_rows (l : list (list fl)) : Prop := forall r, In r l -> finite_list r.

(** The point (x, y) is in the rectangle, its left and lower border excluded. *)
Definition covers (r : rectangle) (x y : fl) : bool :=
  in_bin (r_x r) (fadd (r_x r) (r_w r)) x && in_bin (r_y r) (fadd (r_y r) (r_h r)) y.
