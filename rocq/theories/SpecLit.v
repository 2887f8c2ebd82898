(** Vocabulary for the properties of the literature likelihood (C78, C79). No proofs. *)
From Coq Require Import Reals.
From Verif Require Import Base ModelFloat ModelLikelihood SpecInterp ModelLit.
Local Open Scope R_scope.

(** The two-half-normal density: a normal density of width [sn] below [mu] and of width [sp] above,
    scaled to meet at mu. *)
Definition two_half (mu sp sn y : R) : R :=
  2 / ((sp + sn) * sqrt (2 * PI))
  * exp (- ((y - mu) * (y - mu)) / (2 * ((if Rlt_dec y mu then sn else sp) * (if Rlt_dec y mu then sn else sp)))).

Definition gauss (m s y : R) : R :=
  / (s * sqrt (2 * PI)) * exp (- ((y - m) * (y - m)) / (2 * (s * s))).

(** The array [a] gives [f p] for every point: one entry per point, or one entry for all. *)
Definition gives {P} (f : P -> fl) (pts : list P) (a : list fl) : Prop :=
  a = map f pts \/ exists c, a = [c] /\ forall p, In p pts -> f p = c.

Definition sum_over {P} (f : P -> R) (pts : list P) : R := fold_right Rplus 0 (map f pts).

(** What one simulation of the component gives: energies, yields, efficiencies. *)
Definition simulates {K} (sim : simulate_fun K) (alias : dict string) (key : K) (p : params)
  (key' : K) (energies yields eff : list fl) : Prop :=
  sim key 1%nat (replace_alias alias p) = Ok (key', [energies; yields; eff]).

(** An argument of the density, given or left at its default. *)
Definition argument (name : string) (default : list fl) (args : dict (list fl)) (v : list fl) : Prop :=
  get name args = Some v \/ (get name args = None /\ v = default).

(** Only these arguments are given. *)
Definition at_most (names : list string) (args : dict (list fl)) : Prop := forall k, In k (keys args) -> In k names.

(** One of the arrays has an entry for every point. *)
Definition some_full {P} (pts : list P) (arrays : list (list fl)) : Prop :=
  exists a, In a arrays /\ List.length a = List.length pts.

(** [v] is the value at [x] of the polygon through the rows of the table. *)
Inductive on_curve (t : list (R * R)) (x v : R) : Prop :=
| oc_row : In (x, v) t -> on_curve t x v
| oc_between x0 y0 x1 y1 :
    In (x0, y0) t -> In (x1, y1) t -> x0 < x < x1 ->
    (forall q, In q t -> ~ (x0 < fst q < x1)) ->
    v = line x0 y0 x1 y1 x -> on_curve t x v.

(** [x] lies within the energies of the table. *)
Definition within (xs : list R) (x : R) : Prop := exists a b, In a xs /\ In b xs /\ a <= x <= b.

Definition nonneg_eff (e : fl) : Prop := exists r, e = Fin r /\ 0 <= r.

Definition fins (l : list R) : list fl := map Fin l.
