(** Vocabulary for what the entries of a map file mean (C128). No proofs. *)
From Coq Require Import Reals List String ZArith.
From Verif Require Import Base ModelMaps.
Local Open Scope list_scope.

(** Which axes are logarithmic: coordinate_type is one string for all axes or one string for each. *)
Inductive scale_of : string -> bool -> Prop :=
| scale_lin : scale_of "regbin" false
| scale_log : scale_of "log_regbin" true.
Inductive scales : coordinate_type -> list bool -> Prop :=
| scales_all s b n : scale_of s b -> scales (TypeOne s) (repeat b n)
| scales_each l bs : Forall2 scale_of l bs -> scales (TypeList l) bs.

(** An axis that is called pdf or cdf is not logarithmic. *)
Definition probabilities_linear (n : coordinate_name) (bs : list bool) : Prop :=
  forall l i s, n = NameList l -> nth_error l i = Some s -> s = "pdf"%string \/ s = "cdf"%string ->
    nth_error bs i <> Some true.

(** A nested list: n1 rows of n2 numbers. *)
Definition rows_of (n1 n2 : nat) (rows : list (list R)) : Prop :=
  List.length rows = n1 /\ Forall (fun r => List.length r = n2) rows.
(** n1 slices of n2 rows of n3 numbers. *)
Definition slices_of (n1 n2 n3 : nat) (s : list (list (list R))) : Prop :=
  List.length s = n1 /\ Forall (rows_of n2 n3) s.
(** The number at a place of a nested list. *)
Definition entry2 (rows : list (list R)) (i j : Z) : R := nth (Z.to_nat j) (nth (Z.to_nat i) rows []) 0%R.
Definition entry3 (s : list (list (list R))) (i j k : Z) : R := nth (Z.to_nat k) (nth (Z.to_nat j) (nth (Z.to_nat i) s []) []) 0%R.
