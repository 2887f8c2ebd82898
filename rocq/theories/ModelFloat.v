(** Numbers as used by numpy/jax float arrays, idealised: finite values are real numbers (no
    rounding, no overflow, no signed zero), plus the IEEE special values. No proofs in this file. *)
From Coq Require Import Reals List Bool.
Import ListNotations.
Local Open Scope R_scope.

Inductive fl := Fin (r : R) | PInf | NInf | NaN.

(** IEEE 754 addition. *)
Definition fadd (a b : fl) : fl :=
  match a, b with
  | NaN, _ | _, NaN => NaN
  | PInf, NInf | NInf, PInf => NaN
  | PInf, _ | _, PInf => PInf
  | NInf, _ | _, NInf => NInf
  | Fin x, Fin y => Fin (x + y)
  end.

Definition fneg (a : fl) : fl :=
  match a with Fin x => Fin (- x) | PInf => NInf | NInf => PInf | NaN => NaN end.

Definition fsub (a b : fl) : fl := fadd a (fneg b).

(** An infinity times a finite number: by sign, NaN for zero. *)
Definition inf_times (x : R) : fl :=
  match total_order_T x 0 with
  | inleft (left _) => NInf
  | inleft (right _) => NaN
  | inright _ => PInf
  end.

(** IEEE 754 multiplication. *)
Definition fmul (a b : fl) : fl :=
  match a, b with
  | NaN, _ | _, NaN => NaN
  | Fin x, Fin y => Fin (x * y)
  | PInf, PInf | NInf, NInf => PInf
  | PInf, NInf | NInf, PInf => NInf
  | PInf, Fin x | Fin x, PInf => inf_times x
  | NInf, Fin x | Fin x, NInf => fneg (inf_times x)
  end.

(** 1/x; zero is positive zero. *)
Definition finv (a : fl) : fl :=
  match a with
  | Fin x => if Req_EM_T x 0 then PInf else Fin (/ x)
  | PInf | NInf => Fin 0
  | NaN => NaN
  end.

Definition fdiv (a b : fl) : fl := fmul a (finv b).

(** Comparisons; every comparison with NaN is false. *)
Definition flt (a b : fl) : bool :=
  match a, b with
  | NaN, _ | _, NaN => false
  | Fin x, Fin y => if Rlt_dec x y then true else false
  | NInf, NInf | PInf, PInf => false
  | NInf, _ | _, PInf => true
  | _, _ => false
  end.

Definition fle (a b : fl) : bool :=
  match a, b with
  | NaN, _ | _, NaN => false
  | Fin x, Fin y => if Rle_dec x y then true else false
  | NInf, _ | _, PInf => true
  | _, _ => false
  end.

Definition feq (a b : fl) : bool :=
  match a, b with
  | Fin x, Fin y => if Req_EM_T x y then true else false
  | PInf, PInf | NInf, NInf => true
  | _, _ => false
  end.

Definition is_nan (a : fl) : bool := match a with NaN => true | _ => false end.
Definition is_inf (a : fl) : bool := match a with PInf | NInf => true | _ => false end.
Definition is_fin (a : fl) : bool := match a with Fin _ => true | _ => false end.

(** maximum / minimum of numpy: NaN propagates. *)
Definition fmax (a b : fl) : fl :=
  if is_nan a || is_nan b then NaN else if fle a b then b else a.
Definition fmin (a b : fl) : fl :=
  if is_nan a || is_nan b then NaN else if fle a b then a else b.

(** np.clip(x, lo, hi) *)
Definition fclip (x lo hi : fl) : fl := fmin (fmax x lo) hi.

(** np.log *)
Definition flog (a : fl) : fl :=
  match a with
  | Fin x => match total_order_T x 0 with
             | inleft (left _) => NaN
             | inleft (right _) => NInf
             | inright _ => Fin (ln x)
             end
  | PInf => PInf
  | NInf => NaN
  | NaN => NaN
  end.

(** np.sum; idealised, the order of summation is irrelevant. *)
Definition fsum (l : list fl) : fl := fold_right fadd (Fin 0) l.

(** np.mean *)
Definition fmean (l : list fl) : fl := fdiv (fsum l) (Fin (INR (length l))).
