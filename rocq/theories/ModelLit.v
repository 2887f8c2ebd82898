(** Model of appletree/likelihood.py class LikelihoodLit (461-599), with the array versions of
    randgen.py TwoHalfNorm.logpdf (564-587) and BandTwoHalfNorm (590-615).

    Simplifications: an array is a list (a 0-dimensional array is a list of one entry), arrays of
    two and more dimensions are left out; a band table has rows and its entries are finite numbers;
    scipy.stats.norm.logpdf and scipy.interpolate.interp1d (linear, bounds_error=False,
    fill_value=nan) are modelled from their documentation and source; the component is its
    simulate function; the warning for batch_size != 1 is left out. No proofs in this file. *)
From Coq Require Import Reals.
From Verif Require Import Base ModelFloat ModelTwoHalf ModelInterp ModelLikelihood.
Local Open Scope R_scope.
Local Open Scope string_scope.

(* ------------------------------------------------------------------ *)
(** * numpy arrays of one dimension *)

(** The length of two arrays broadcast together. *)
Definition broadcast2 (n m : nat) : result nat :=
  if Nat.eqb n m then Ok n
  else if Nat.eqb n 1 then Ok m
  else if Nat.eqb m 1 then Ok n
  else Err ValueError.

Fixpoint broadcast (n : nat) (ms : list nat) : result nat :=
  match ms with
  | [] => Ok n
  | m :: rest => match broadcast2 n m with Ok k => broadcast k rest | Err e => Err e end
  end.

(** Entry [i] of an array broadcast to a longer one. *)
Definition pick (l : list fl) (i : nat) : fl :=
  if Nat.eqb (List.length l) 1 then nth 0 l NaN else nth i l NaN.

(** np.all(l > 0) *)
Definition all_positive (l : list fl) : bool := forallb (fun s => flt (Fin 0) s) l.

(* ------------------------------------------------------------------ *)
(** * The densities *)

(** randgen.py 581-587: the formula on one entry. *)
Definition twohalf_entry (x mu sp sn : fl) : fl :=
  let norm := fdiv (fdiv (Fin 2) (fadd sp sn)) (Fin (sqrt (2 * PI))) in
  let logpdf :=
    if flt x mu
    then fdiv (fdiv (fneg (fsqr (fsub x mu))) (fsqr sn)) (Fin 2)
    else fdiv (fdiv (fneg (fsqr (fsub x mu))) (fsqr sp)) (Fin 2) in
  fadd logpdf (flog norm).

(** randgen.py 564-587 on arrays. *)
Definition twohalf_array (x mu sp sn : list fl) : result (list fl) :=
  if all_positive sp && all_positive sn then
    match broadcast (List.length x) [List.length mu; List.length sp; List.length sn] with
    | Ok n => Ok (map (fun i => twohalf_entry (pick x i) (pick mu i) (pick sp i) (pick sn i)) (seq 0 n))
    | Err e => Err e
    end
  else Err AssertionError.

(** scipy.stats.norm.logpdf on one entry: NaN for a scale that is not positive. *)
Definition norm_entry (x loc scale : fl) : fl :=
  if flt (Fin 0) scale then
    let z := fdiv (fsub x loc) scale in
    fsub (fsub (fdiv (fneg (fsqr z)) (Fin 2)) (Fin (ln (sqrt (2 * PI))))) (flog scale)
  else NaN.

Definition norm_array (x loc scale : list fl) : result (list fl) :=
  match broadcast (List.length x) [List.length loc; List.length scale] with
  | Ok n => Ok (map (fun i => norm_entry (pick x i) (pick loc i) (pick scale i)) (seq 0 n))
  | Err e => Err e
  end.

(* ------------------------------------------------------------------ *)
(** * The band *)

(** interp1d sorts its table by x (stable sort). *)
Fixpoint put (a : R * R) (l : list (R * R)) : list (R * R) :=
  match l with
  | [] => [a]
  | b :: rest => if Rle_dec (fst a) (fst b) then a :: b :: rest else b :: put a rest
  end.
Definition sorted_table (t : list (R * R)) : list (R * R) := fold_right put [] t.

(** interp1d(x, y, bounds_error=False, fill_value=np.nan): the constructor. *)
Definition interp1d (x y : list R) : result (list (R * R)) :=
  if Nat.eqb (List.length x) (List.length y) then Ok (sorted_table (combine x y)) else Err ValueError.

(** Its value at one point: NaN outside the table and at NaN. *)
Definition interp1d_at (t : list (R * R)) (x : fl) : fl :=
  match x with
  | Fin v =>
      let xs := map fst t in
      if Rlt_dec v (nth 0 xs 0) then NaN
      else if Rlt_dec (nth (List.length xs - 1) xs 0) v then NaN
      else Fin (interp xs (map snd t) v)
  | _ => NaN
  end.

(** randgen.py 594-598: the three interpolators. *)
Record band := mk_band { b_y : list (R * R); b_up : list (R * R); b_lo : list (R * R) }.

Definition new_band (x y up lo : list R) : result band :=
  match interp1d x y with
  | Err e => Err e
  | Ok a =>
      match interp1d x up with
      | Err e => Err e
      | Ok b => match interp1d x lo with Err e => Err e | Ok c => Ok (mk_band a b c) end
      end
  end.

Definition or_else (d : R) (x : fl) : fl := if is_nan x then Fin d else x.

(** randgen.py 600-615. *)
Definition band_array (b : band) (x y : list fl) : result (list fl) :=
  let mu := map (interp1d_at (b_y b)) x in
  let sp := map (interp1d_at (b_up b)) x in
  let sn := map (interp1d_at (b_lo b)) x in
  match twohalf_array y (map (or_else 0) mu) (map (or_else 1) sp) (map (or_else 1) sn) with
  | Err e => Err e
  | Ok l =>
      match broadcast (List.length mu) [List.length l] with
      | Err e => Err e
      | Ok n => Ok (map (fun i => if is_nan (pick mu i) then NInf else pick l i) (seq 0 n))
      end
  end.

(* ------------------------------------------------------------------ *)
(** * LikelihoodLit *)

(** The logpdf attribute: a density with its arguments (those left out have their default). *)
Inductive density :=
| DTwoHalf (mu sp sn : list fl)
| DNorm (loc scale : list fl)
| DBand (b : band).

(** likelihood.py 491-492: {k: np.array(v) for k, v in zip( *logpdf_args)}. *)
Definition logpdf_args (names : list string) (values : list (list fl)) : dict (list fl) :=
  fold_left (fun d a => set (fst a) (snd a) d) (combine names values) [].

(** Only the named keyword arguments are taken (else TypeError). *)
Definition only (allowed : list string) (args : dict (list fl)) : bool :=
  forallb (fun a => existsb (String.eqb (fst a)) allowed) args.
Definition arg (name : string) (default : list fl) (args : dict (list fl)) : list fl :=
  match get name args with Some v => v | None => default end.

(** A finite table column (see the simplifications above). *)
Fixpoint finite_column (l : list fl) : option (list R) :=
  match l with
  | [] => Some []
  | Fin r :: rest => match finite_column rest with Some rs => Some (r :: rs) | None => None end
  | _ => None
  end.

(** likelihood.py 470-513: __init__ and _sanity_check. [None]: outside this model (a band table that is empty or has
    entries that are not finite). Unknown keyword arguments of twohalfnorm and norm raise at the
    first call only ([l_badargs]). *)
Record lit := mk_lit { l_density : density; l_badargs : bool }.

Definition new_lit (variable_type : string) (bins_on : list string) (args : dict (list fl))
  : option (result lit) :=
  if negb (existsb (String.eqb variable_type) ["twohalfnorm"; "norm"; "band"]) then Some (Err RuntimeError)
  else if negb (Nat.eqb (List.length bins_on) 2) then Some (Err AssertionError)
  else if String.eqb variable_type "twohalfnorm" then
    Some (Ok (mk_lit (DTwoHalf (arg "mu" [Fin 0] args) (arg "sigma_pos" [Fin 1] args)
                               (arg "sigma_neg" [Fin 1] args))
                     (negb (only ["mu"; "sigma_pos"; "sigma_neg"] args))))
  else if String.eqb variable_type "norm" then
    Some (Ok (mk_lit (DNorm (arg "loc" [Fin 0] args) (arg "scale" [Fin 1] args))
                     (negb (only ["loc"; "scale"] args))))
  else
    if negb (only ["x"; "y"; "yerr_upper"; "yerr_lower"] args) then Some (Err TypeError)
    else
    match get "x" args, get "y" args, get "yerr_upper" args, get "yerr_lower" args with
    | Some x, Some y, Some up, Some lo =>
        match finite_column x, finite_column y, finite_column up, finite_column lo with
        | Some [], _, _, _ => None
        | Some x', Some y', Some up', Some lo' =>
            match new_band x' y' up' lo' with
            | Ok b => Some (Ok (mk_lit (DBand b) false))
            | Err e => Some (Err e)
            end
        | _, _, _, _ => None
        end
    | _, _, _, _ => Some (Err TypeError)
    end.

(** likelihood.py 498-505: self.logpdf(energies, yields). *)
Definition logpdf (L : lit) (x y : list fl) : result (list fl) :=
  if l_badargs L then Err TypeError
  else match l_density L with
       | DTwoHalf mu sp sn => twohalf_array y mu sp sn
       | DNorm loc scale => norm_array y loc scale
       | DBand b => band_array b x y
       end.

(** likelihood.py 558-561: float((llh * eff).sum()), NaN replaced with -inf. *)
Definition weigh (l eff : list fl) : result fl :=
  match broadcast (List.length l) [List.length eff] with
  | Err e => Err e
  | Ok n =>
      let s := fsum (map (fun i => fmul (pick l i) (pick eff i)) (seq 0 n)) in
      Ok (if is_nan s then NInf else s)
  end.

(** The function simulate of a component: columns, the last one the efficiencies. *)
Definition simulate_fun (K : Type) := K -> nat -> params -> result (K * list (list fl)).

(** likelihood.py 515-530: _simulate_yields; the decorator replaces the aliases. *)
Definition simulate_yields {K} (alias : dict string) (cs : dict (simulate_fun K)) (key : K) (batch_size : nat)
  (p : params) : result (K * list (list fl)) :=
  match cs with
  | [(_, sim)] => sim key batch_size (replace_alias alias p)
  | _ => Err AssertionError
  end.

(** likelihood.py 539-562: get_log_likelihood; the decorator replaces the aliases a first time. *)
Definition lit_log_likelihood {K} (L : lit) (alias : dict string) (cs : dict (simulate_fun K)) (key : K)
  (batch_size : nat) (p : params) : result (K * fl) :=
  match simulate_yields alias cs key 1 (replace_alias alias p) with
  | Err e => Err e
  | Ok (key', result) =>
      match result with
      | [energies; yields; eff] =>
          match logpdf L energies yields with
          | Err e => Err e
          | Ok l => match weigh l eff with Err e => Err e | Ok s => Ok (key', s) end
          end
      | _ => Err ValueError
      end
  end.
