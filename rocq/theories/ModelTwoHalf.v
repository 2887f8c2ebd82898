(** Model of appletree/randgen.py class TwoHalfNorm (lines 534-587) on scalars; the array version of
    logpdf and BandTwoHalfNorm are in ModelLit.v. No proofs in this file. *)
From Coq Require Import Reals.
From Verif Require Import Base ModelFloat.
Local Open Scope R_scope.

(** numpy.abs *)
Definition fabs (x : fl) : fl :=
  match x with Fin r => Fin (Rabs r) | PInf | NInf => PInf | NaN => NaN end.

(** What a comparison of two scalars gives: a numpy boolean if one of them is a numpy scalar or
    array, a Python bool if both are Python numbers. *)
Inductive boolkind := NumpyBool | PythonBool.

(** A boolean used as a factor. *)
Definition bool_num (b : bool) : R := if b then 1 else 0.

(** [~b] used as a factor: logical not for numpy, bitwise complement of 0/1 for Python. *)
Definition invert_num (k : boolkind) (b : bool) : R :=
  match k with
  | NumpyBool => bool_num (negb b)
  | PythonBool => - bool_num b - 1
  end.

(** randgen.py 538-562, TwoHalfNorm.rvs with size=None; [u] and [z] are the values drawn by
    np.random.uniform and np.random.normal. *)
Definition twohalf_rvs (k : boolkind) (u z mu sp sn : fl) : result fl :=
  if flt (Fin 0) sp && flt (Fin 0) sn then
    let pos_half_prob := fdiv sp (fadd sp sn) in
    let use_pos := flt u pos_half_prob in
    let n_sigma := fabs z in
    let offset := fsub (fmul (fmul (Fin (bool_num use_pos)) n_sigma) sp)
                       (fmul (fmul (Fin (invert_num k use_pos)) n_sigma) sn) in
    Ok (fadd offset mu)
  else Err AssertionError.

(** x**2 *)
Definition fsqr (x : fl) : fl := fmul x x.

(** randgen.py 564-587, TwoHalfNorm.logpdf. *)
Definition twohalf_logpdf (x mu sp sn : fl) : result fl :=
  if flt (Fin 0) sp && flt (Fin 0) sn then
    let norm := fdiv (fdiv (Fin 2) (fadd sp sn)) (Fin (sqrt (2 * PI))) in
    let logpdf :=
      if flt x mu
      then fdiv (fdiv (fneg (fsqr (fsub x mu))) (fsqr sn)) (Fin 2)
      else fdiv (fdiv (fneg (fsqr (fsub x mu))) (fsqr sp)) (Fin 2) in
    Ok (fadd logpdf (flog norm))
  else Err AssertionError.
