(** Model of the class Plotter (appletree/plot.py, lines 19 to 451): what is read from the backend file,
    which samples are dropped, and the numbers that each figure shows. No proofs in this file.
    Coordinates of walkers are real numbers; log posterior and log prior may be infinite or NaN.
    Left out: styles, legends and warnings; the corner plot shows its samples only. *)
From Coq Require Import Reals ZArith.
From Verif Require Import Base ModelFloat ModelTwoHalf ModelParameter ModelContext.
Local Open Scope string_scope.
Local Open Scope list_scope.

(** What the backend file holds: numbers of walkers and of parameters, and for every iteration the
    coordinates, log posterior and blob (log prior) of every walker. *)
Record backend := mk_backend {
  bk_walkers : nat;
  bk_params : nat;
  bk_iters : list (list (list R * (fl * fl)))
}.

(** [l[start::step]] for [step > 0]. *)
Fixpoint slice {A} (start step : nat) (l : list A) : list A :=
  match l with
  | [] => []
  | x :: l' => match start with
               | O => x :: slice (step - 1) step l'
               | S s => slice s step l'
               end
  end.

(** emcee's HDFBackend.get_value, not flat: [v[discard + thin - 1 : iteration : thin]]; an error if
    there is no iteration or the step is zero. *)
Definition get_value {A} (field : (list R * (fl * fl)) -> A) (b : backend) (discard thin : nat)
  : result (list (list A)) :=
  match bk_iters b, thin with
  | [], _ => Err AttributeError
  | _, O => Err ValueError
  | its, _ => Ok (slice (discard + thin - 1) thin (map (map field) its))
  end.
(** The same with flat=True: the first two axes joined. *)
Definition get_flat {A} (field : (list R * (fl * fl)) -> A) (b : backend) (discard thin : nat)
  : result (list A) :=
  do v <- get_value field b discard thin; Ok (List.concat v).

(** [a[mask]] along the first axis. *)
Fixpoint compress {A} (mask : list bool) (l : list A) : list A :=
  match mask, l with
  | true :: mask', x :: l' => x :: compress mask' l'
  | false :: mask', _ :: l' => compress mask' l'
  | _, _ => []
  end.

Record plotter := mk_plotter {
  pl_discard : nat;
  pl_thin : nat;
  pl_chain : list (list (list R));
  pl_post : list (list fl);
  pl_prior : list (list fl);
  pl_flat : list (list R);
  pl_flat_post : list fl;
  pl_flat_prior : list fl;
  pl_names : list string;
  pl_config : dict setting;
  pl_mpe : dict R;
  pl_walkers : nat;
  pl_params : nat
}.

(** plot.py:63 self.n_iter *)
Definition n_iter (p : plotter) : nat := List.length (pl_chain p).

(** plot.py:61 [{key: param_mpe[i] for i, key in enumerate(self.param_names)}] *)
Fixpoint name_values (names : list string) (v : list R) (d : dict R) : result (dict R) :=
  match names, v with
  | [], _ => Ok d
  | n :: names', x :: v' => name_values names' v' (set n x d)
  | _ :: _, [] => Err IndexError
  end.

(** plot.py:22-63 Plotter.__init__; [names] and [config] are the attributes of the file. *)
Definition new_plotter (b : backend) (names : list string) (config : dict setting) (discard thin : nat)
  : result plotter :=
  do chain <- get_value fst b discard thin;
  do post <- get_value (fun s => fst (snd s)) b discard thin;
  do prior <- get_value (fun s => snd (snd s)) b discard thin;
  let mask := map (forallb is_fin) post in
  do flat <- get_flat fst b discard thin;
  do fpost <- get_flat (fun s => fst (snd s)) b discard thin;
  do fprior <- get_flat (fun s => snd (snd s)) b discard thin;
  let fmask := map is_fin fpost in
  let flat' := compress fmask flat in
  let fpost' := compress fmask fpost in
  do i <- argmax fpost';
  do best <- match nth_error flat' i with Some v => Ok v | None => Err IndexError end;
  do mpe <- name_values names best [];
  Ok (mk_plotter discard thin (compress mask chain) (compress mask post) (compress mask prior)
        flat' fpost' (compress fmask fprior) names config mpe (bk_walkers b) (bk_params b)).

(* ------------------------------------------------------------------ *)
(** * Curves *)

(** One set of axes: its label and the curves in it (positions and values). *)
Record axes := mk_axes { ax_label : string; ax_curves : list (list (fl * fl)) }.

(** plot.py:135 [np.arange(n) * self.thin + self.discard] *)
Definition positions (p : plotter) (n : nat) : list fl :=
  map (fun k => Fin (INR (k * pl_thin p + pl_discard p))) (seq 0 n).

(** [a[:, j]] *)
Definition column {A} (d : A) (j : nat) (rows : list (list A)) : list A := map (fun r => nth j r d) rows.

(** plot.py:133-138: one curve for every walker. *)
Definition walker_curves (p : plotter) (rows : list (list fl)) : list (list (fl * fl)) :=
  map (fun j => combine (positions p (List.length rows)) (column NaN j rows)) (seq 0 (pl_walkers p)).

(** [fig.add_subplot(n_rows, n_cols, i)]: an error unless [1 <= i <= n_rows * n_cols]. *)
Definition add_subplot (rows cols i : nat) : result unit :=
  if Nat.leb 1 i && Nat.leb i (rows * cols) then Ok tt else Err ValueError.

(** [int(np.ceil(n / 2))] *)
Definition half_up (n : nat) : nat := Nat.div (n + 1) 2.

(** plot.py:131-141 and 201-214, 339-351: one set of axes for every parameter. *)
Fixpoint per_param {A} (rows : nat) (draw : nat -> result A) (is : list nat) : result (list A) :=
  match is with
  | [] => Ok []
  | i :: is' =>
      do _ <- add_subplot rows 2 (i + 1);
      do a <- draw i;
      do l <- per_param rows draw is';
      Ok (a :: l)
  end.

(** [self.param_names[i]] *)
Definition name_at (p : plotter) (i : nat) : result string :=
  match nth_error (pl_names p) i with Some n => Ok n | None => Err IndexError end.

(** [self.chain[:, :, i]] *)
Definition param_rows (p : plotter) (i : nat) : list (list R) := map (column 0%R i) (pl_chain p).

(** plot.py:152 and 164 [ax.set_ylim(a.max() - 100, a.max())]: the maximum of no entry is a ValueError, and
    so are limits that are not finite. *)
Definition finite_max (rows : list (list fl)) : result unit :=
  let l := List.concat rows in
  if forallb (fun x => match x with Fin _ | NInf => true | _ => false end) l && existsb is_fin l
  then Ok tt else Err ValueError.

(** [axes[-2]] *)
Definition last_two {A} (l : list A) : result unit :=
  match l with _ :: _ :: _ => Ok tt | _ => Err IndexError end.
Definition last_one {A} (l : list A) : result unit :=
  match l with _ :: _ => Ok tt | _ => Err IndexError end.

(** plot.py:112-172 plot_burn_in *)
Definition plot_burn_in (p : plotter) : result (list axes) :=
  let rows := half_up (pl_params p + 2) in
  do l <- per_param rows
            (fun i => do n <- name_at p i;
                      Ok (mk_axes n (walker_curves p (map (map Fin) (param_rows p i)))))
            (seq 0 (pl_params p));
  do _ <- add_subplot rows 2 (pl_params p + 1);
  do _ <- finite_max (pl_post p);
  do _ <- add_subplot rows 2 (pl_params p + 2);
  do _ <- finite_max (pl_prior p);
  let l' := l ++ [mk_axes "log posterior" (walker_curves p (pl_post p));
                  mk_axes "log prior" (walker_curves p (pl_prior p))] in
  do _ <- last_two l';
  Ok l'.

(* ------------------------------------------------------------------ *)
(** * Priors *)

Definition fexp (x : fl) : fl :=
  match x with Fin r => Fin (exp r) | PInf => PInf | NInf => Fin 0 | NaN => NaN end.

(** plot.py:98-100 *)
Definition norm_pdf (x mean std : fl) : fl :=
  fdiv (fdiv (fexp (fdiv (fdiv (fneg (fsqr (fsub x mean))) (fsqr std)) (Fin 2))) (Fin (sqrt (2 * PI)))) std.
(** plot.py:102-104; the bounds are Python numbers. *)
Definition uniform_pdf (x lower upper : fl) : result fl :=
  match fsub upper lower with
  | Fin w => if Req_EM_T w 0 then Err ZeroDivisionError else Ok (Fin (/ w))
  | w => Ok (fdiv (Fin 1) w)
  end.
(** plot.py:106-110 *)
Definition thn_pdf (sigmas : fl -> fl -> result (fl * fl)) (x mu ep en : fl) : result fl :=
  do sg <- sigmas ep en;
  do l <- twohalf_logpdf x mu (fst sg) (snd sg);
  Ok (fexp l).

(** A function of one number applied to an array. *)
Fixpoint over (f : fl -> result fl) (xs : list fl) : result (list fl) :=
  match xs with
  | [] => Ok []
  | x :: xs' => do y <- f x; do l <- over f xs'; Ok (y :: l)
  end.

(** plot.py:189-193 and 204-209: the function drawn for the prior, if it is not free. The keyword arguments
    have to be those of the function. *)
Definition prior_pdf (sigmas : fl -> fl -> result (fl * fl)) (s : setting) : result (option (fl -> result fl)) :=
  do ty <- key (s_type s);
  do args <- key (s_args s);
  if String.eqb ty "free" then Ok None
  else if String.eqb ty "norm" then
    match args with
    | [_; _] => match get "mean" args, get "std" args with
                | Some m, Some sd => Ok (Some (fun x => Ok (norm_pdf x m sd)))
                | _, _ => Err TypeError
                end
    | _ => Err TypeError
    end
  else if String.eqb ty "uniform" then
    match args with
    | [_; _] => match get "lower" args, get "upper" args with
                | Some lo, Some hi => Ok (Some (fun x => uniform_pdf x lo hi))
                | _, _ => Err TypeError
                end
    | _ => Err TypeError
    end
  else if String.eqb ty "twohalfnorm" then
    match args with
    | [_; _; _] => match get "mu" args, get "sigma_pos" args, get "sigma_neg" args with
                   | Some mu, Some ep, Some en => Ok (Some (fun x => thn_pdf sigmas x mu ep en))
                   | _, _, _ => Err TypeError
                   end
    | _ => Err TypeError
    end
  else Err KeyError.

(** The points of the curve at the positions [xs]. *)
Definition prior_curve (sigmas : fl -> fl -> result (fl * fl)) (s : setting) (xs : list fl)
  : result (option (list (fl * fl))) :=
  do f <- prior_pdf sigmas s;
  match f with
  | None => Ok None
  | Some f => do ys <- over f xs; Ok (Some (combine xs ys))
  end.

(** A panel of plot_marginal_posterior: the parameter, the samples of the histogram, and the prior. *)
Record panel := mk_panel {
  pn_name : string;
  pn_samples : list R;
  pn_prior : option (list (fl * fl))
}.

(** plot.py:174-226 plot_marginal_posterior; [grid] gives the positions at which the prior is drawn, spread
    over the axis that matplotlib chose for the samples. *)
Definition plot_marginal (sigmas : fl -> fl -> result (fl * fl)) (grid : list R -> list fl) (p : plotter)
  : result (list panel) :=
  do l <- per_param (half_up (pl_params p))
            (fun i => do n <- name_at p i;
                      do s <- key (get n (pl_config p));
                      do c <- prior_curve sigmas s (grid (column 0%R i (pl_flat p)));
                      Ok (mk_panel n (column 0%R i (pl_flat p)) c))
            (seq 0 (pl_params p));
  do _ <- last_one l;
  Ok l.

(* ------------------------------------------------------------------ *)
(** * Acceptance fraction *)

Definition Rneqb (x y : R) : bool := if Req_EM_T x y then false else true.

(** [np.any(a != b)] *)
Fixpoint differs (a b : list R) : bool :=
  match a, b with
  | x :: a', y :: b' => Rneqb x y || differs a' b'
  | _, _ => false
  end.

Fixpoint zip_with {A B C} (f : A -> B -> C) (a : list A) (b : list B) : list C :=
  match a, b with
  | x :: a', y :: b' => f x y :: zip_with f a' b'
  | _, _ => []
  end.

(** plot.py:395-397: row [i - 1] tells which walkers moved from iteration [i - 1] to [i]. *)
Fixpoint accepted (chain : list (list (list R))) : list (list bool) :=
  match chain with
  | it0 :: ((it1 :: _) as rest) => zip_with differs it1 it0 :: accepted rest
  | _ => []
  end.

Definition b2r (b : bool) : R := if b then 1%R else 0%R.

(** plot.py:398 [np.cumsum(accepted, axis=0) / np.arange(1, n_iter).reshape(-1, 1)]; [acc] are the sums
    so far, [i] their number. *)
Fixpoint cum_fraction (acc : list R) (i : nat) (rows : list (list bool)) : list (list fl) :=
  match rows with
  | [] => []
  | r :: rows' =>
      let acc' := zip_with (fun a b => (a + b2r b)%R) acc r in
      map (fun a => fdiv (Fin a) (Fin (INR (S i)))) acc' :: cum_fraction acc' (S i) rows'
  end.

(** plot.py:409-412: one entry of the moving average. [np.sum] over the rows, then the mean over the
    walkers of the sums divided by the window length. *)
Definition window_mean (walkers window : nat) (rows : list (list bool)) : fl :=
  fmean (map (fun j => fdiv (Fin (fold_right Rplus 0%R (map (fun r => b2r (nth j r false)) rows)))
                            (Fin (INR window)))
             (seq 0 walkers)).

(** What plot_acceptance_fraction shows: cumulative averages, moving averages (with their positions), and
    the number for every walker. *)
Record acceptance := mk_acceptance {
  ac_cumulative : list (fl * fl);
  ac_moving : list (fl * fl);
  ac_walkers : list fl
}.

(** plot.py:369-451 plot_acceptance_fraction *)
Definition plot_acceptance (p : plotter) (window_length : nat) : result acceptance :=
  let n := n_iter p in
  match n with
  | O => Err ValueError
  | S n' =>
      let acc := accepted (pl_chain p) in
      let frac := cum_fraction (repeat 0%R (pl_walkers p)) 0 acc in
      let window := if Nat.leb n window_length then n' else window_length in
      let at_ i := Fin (INR (i * pl_thin p + pl_discard p)) in
      Ok (mk_acceptance
            (combine (map at_ (seq 1 n')) (map fmean frac))
            (map (fun i => (at_ i, window_mean (pl_walkers p) window
                                     (firstn window (skipn (i - window) acc))))
                 (seq window (n - window)))
            (map (fun j => fmean (column NaN j frac)) (seq 0 (pl_walkers p))))
  end.

(* ------------------------------------------------------------------ *)
(** * Autocorrelation *)

(** plot.py:313-317 next_pow_two; [fuel] iterations of the loop (as many as [n] are enough). *)
Fixpoint double_until (fuel i n : nat) : nat :=
  match fuel with
  | O => i
  | S f => if Nat.ltb i n then double_until f (2 * i) n else i
  end.
Definition next_pow_two (n : nat) : nat := double_until n 1 n.

Local Open Scope R_scope.

(** The sum of [f 0 + ... + f (n-1)]. *)
Fixpoint sum_to (n : nat) (f : nat -> R) : R :=
  match n with O => 0 | S n' => sum_to n' f + f n' end.

(** Complex numbers. *)
Definition cplx := (R * R)%type.
Definition cmul (a b : cplx) : cplx := (fst a * fst b - snd a * snd b, fst a * snd b + snd a * fst b).
Definition conj (a : cplx) : cplx := (fst a, - snd a).
Definition angle (n m j : nat) : R := 2 * PI * INR m * INR j / INR n.

(** [np.fft.fft(x, n)]: the entries beyond the end are zero. *)
Definition fft (n : nat) (x : list R) (m : nat) : cplx :=
  (sum_to n (fun j => nth j x 0 * cos (angle n m j)), sum_to n (fun j => - (nth j x 0 * sin (angle n m j)))).
(** [np.fft.ifft(f)[k].real] *)
Definition ifft_re (n : nat) (f : nat -> cplx) (k : nat) : R :=
  sum_to n (fun m => fst (cmul (f m) (cos (angle n m k), sin (angle n m k)))) / INR n.

Definition rmean (x : list R) : R := fold_right Rplus 0 x / INR (List.length x).

(** plot.py:301-311 autocorr_func_1d with norm=True, for an array of one dimension. *)
Definition autocorr_func (x : list R) : list fl :=
  let n := next_pow_two (List.length x) in
  let y := map (fun v => v - rmean x) x in
  let f := fft (2 * n) y in
  let acf k := ifft_re (2 * n) (fun m => cmul (f m) (conj (f m))) k / INR (4 * n) in
  map (fun k => fdiv (Fin (acf k)) (Fin (acf 0%nat))) (seq 0 (List.length x)).

(** [2.0 * np.cumsum(f) - 1.0] *)
Fixpoint cumsum (acc : fl) (l : list fl) : list fl :=
  match l with [] => [] | x :: l' => fadd acc x :: cumsum (fadd acc x) l' end.
Definition taus_of (f : list fl) : list fl := map (fun s => fsub (fmul (Fin 2) s) (Fin 1)) (cumsum (Fin 0) f).

(** plot.py:319-323 auto_window: [np.argmin] of booleans is the first False, or 0 if there is none. *)
Fixpoint first_false (i : nat) (m : list bool) : option nat :=
  match m with [] => None | b :: m' => if b then first_false (S i) m' else Some i end.
Definition auto_window (taus : list fl) (c : R) : nat :=
  let m := zip_with (fun i t => flt (Fin (INR i)) (fmul (Fin c) t)) (seq 0 (List.length taus)) taus in
  if existsb (fun b => b) m then match first_false 0 m with Some i => i | None => 0%nat end
  else (List.length taus - 1)%nat.

(** plot.py:325-332 autocorr_new with c=5; [n] is y.shape[1]. *)
Definition autocorr_new (n : nat) (y : list (list R)) : result fl :=
  let zero := repeat (Fin 0) n in
  let f := fold_left (fun acc yy => zip_with fadd acc (autocorr_func yy)) y zero in
  let taus := taus_of (map (fun v => fdiv v (Fin (INR (List.length y)))) f) in
  match nth_error taus (auto_window taus 5) with Some t => Ok t | None => Err IndexError end.

(** plot.py:337 [np.geomspace(lo, hi, 10).astype(int)]: the ends are exact, numbers are cut. *)
Definition geom_int (lo hi : nat) (j : nat) : nat :=
  if Nat.eqb j 0 then lo
  else if Nat.eqb j 9 then hi
  else Z.to_nat (Int_part (INR lo * Rpower (INR hi / INR lo) (INR j / 9))).

(** plot.py:340 [self.chain[:, :, i].T[:, :n]] *)
Definition walker_samples (p : plotter) (i n : nat) : list (list R) :=
  map (fun j => firstn n (column 0 j (param_rows p i))) (seq 0 (pl_walkers p)).

(** plot.py:342-343 *)
Fixpoint taus_at (p : plotter) (i : nat) (ns : list nat) : result (list (nat * fl)) :=
  match ns with
  | [] => Ok []
  | n :: ns' =>
      do t <- autocorr_new (Nat.min n (n_iter p)) (walker_samples p i n);
      do l <- taus_at p i ns';
      Ok (((n * pl_thin p)%nat, t) :: l)
  end.

(** plot.py:283-367 plot_autocorr: for every parameter the positions N * thin and the estimates. [lo] is
    min_autocorr_time, a positive number. *)
Definition plot_autocorr (lo : nat) (p : plotter) : result (list (string * list (nat * fl))) :=
  match n_iter p with
  | O => Err ValueError
  | _ =>
      do l <- per_param (half_up (pl_params p))
                (fun i => do t <- taus_at p i (map (geom_int lo (n_iter p)) (seq 0 10));
                          do n <- name_at p i;
                          Ok (n, t))
                (seq 0 (pl_params p));
      do _ <- last_one l;
      do _ <- last_two l;
      Ok l
  end.

(* ------------------------------------------------------------------ *)
(** * All plots *)

(** plot.py:65-96 make_all_plots: the figures that are saved (if [save]) before an exception, and the
    outcome. The corner plot is drawn by another package: [corner] is its outcome. *)
Definition make_all_plots (sigmas : fl -> fl -> result (fl * fl)) (grid : list R -> list fl) (lo : nat) (corner : result unit) (save : bool)
    (p : plotter) : list string * result unit :=
  let saved l := if save then l else [] in
  match plot_burn_in p with
  | Err e => ([], Err e)
  | Ok _ =>
  match plot_marginal sigmas grid p with
  | Err e => (saved ["burn_in"], Err e)
  | Ok _ =>
  match corner with
  | Err e => (saved ["burn_in"; "marginal_posterior"], Err e)
  | Ok _ =>
  match plot_autocorr lo p with
  | Err e => (saved ["burn_in"; "marginal_posterior"; "corner"], Err e)
  | Ok _ =>
  match plot_acceptance p 100 with
  | Err e => (saved ["burn_in"; "marginal_posterior"; "corner"; "autocorr"], Err e)
  | Ok _ => (saved ["burn_in"; "marginal_posterior"; "corner"; "autocorr"; "acceptance_fraction"], Ok tt)
  end end end end end.
