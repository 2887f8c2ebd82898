(** Model of the numerical part of appletree/component.py and of appletree/likelihood.py.
    No proofs in this file.
    Arrays of simulated observables are given as rows (one list per event); numpy holds the same
    data as columns of equal length. Two-dimensional histograms are flattened row by row. *)
From Coq Require Import Reals.
From Verif Require Import Base ModelFloat ModelHist.
Local Open Scope string_scope.
Local Open Scope list_scope.

(** A parameter dictionary: the values passed to simulate. *)
Definition params := dict fl.

(* ------------------------------------------------------------------ *)
(** * Components *)

(** component.py:58-69, 143-152: bins_type and bins together. [BUnsupported] is an irreg binning
    of another dimension or an unknown bins_type (ValueError when used). *)
Inductive binning :=
| BIrreg1 (edges : list fl)
| BIrreg2 (edges_x : list fl) (rows_y : list (list fl))
| BMesh1 (edges : list fl)
| BMesh2 (edges_x edges_y : list fl)
| BUnsupported.

(** len(self.bins) *)
Definition ndim (b : binning) : nat :=
  match b with
  | BIrreg1 _ | BMesh1 _ => 1
  | BIrreg2 _ _ | BMesh2 _ _ => 2
  | BUnsupported => 0
  end.

(** component.py:30, 162-175 norm_type. *)
Inductive norm_type := OnPdf | OnSim | NormOther.

Definition obs (i : nat) (r : list fl) : fl := nth i r NaN.

(** component.py:155-157: [jnp.clip(hist, 1e-10 + jnp.mean(eff), jnp.inf)] *)
Definition eps : R := (1 / 10 ^ 10)%R.
Definition floor_hist (eff : list fl) (h : list fl) : list fl :=
  map (fun x => fclip x (fadd (Fin eps) (fmean eff)) PInf) h.

Section Component.
  Variable out_of_range_row : list (list fl) -> nat -> list fl.

  (** component.py:143-154 the histogram before the floor. *)
  Definition plain_hist (b : binning) (mc : list (list fl)) (eff : list fl) : result (list fl) :=
    match b with
    | BIrreg1 e => Ok (hist_1d e (combine (map (obs 0) mc) eff))
    | BIrreg2 ex ry =>
        Ok (List.concat (hist_2d out_of_range_row ex ry
              (combine (map (fun r => (obs 0 r, obs 1 r)) mc) eff)))
    | BMesh1 e => Ok (hist_mesh_1d e (combine (map (obs 0) mc) eff))
    | BMesh2 ex ey =>
        Ok (List.concat (hist_mesh_2d ex ey (combine (map (fun r => (obs 0 r, obs 1 r)) mc) eff)))
    | BUnsupported => Err ValueError
    end.

  (** component.py:135-158 implement_binning *)
  Definition implement_binning (add_eps : bool) (b : binning) (mc : list (list fl)) (eff : list fl)
    : result (list fl) :=
    match plain_hist b mc eff with
    | Err e => Err e
    | Ok h => Ok (if add_eps then floor_hist eff h else h)
    end.

  (** component.py:160-176 get_normalization. [mcinput] is what lines 165-171 find: an error (no
      registry, no energy plugin), no bootstrap input, or the number of selected events. *)
  Definition get_normalization (nt : norm_type) (rate_name : string) (mcinput : result (option fl))
      (h : list fl) (p : params) (batch_size : nat) : result fl :=
    match nt with
    | OnPdf =>
        match get rate_name p with
        | None => Err KeyError
        | Some rate => Ok (fmul (fdiv (Fin 1) (fsum h)) rate)
        end
    | OnSim =>
        match mcinput with
        | Err e => Err e
        | Ok m =>
            match get rate_name p with
            | None => Err KeyError
            | Some rate =>
                let n := match m with Some n => n | None => Fin (INR batch_size) end in
                Ok (fmul (fdiv (Fin 1) n) rate)
            end
        end
    | NormOther => Err ValueError
    end.

  Definition scale (f : fl) (h : list fl) : list fl := map (fun x => fmul x f) h.

  (** What a component carries besides its workflow. *)
  Record cnum := mk_cnum {
    n_rate : string;
    n_norm : norm_type;
    n_add_eps : bool;
    n_no_eff : bool;                   (* force_no_eff *)
    n_bins : binning;
    n_mcinput : result (option fl)
  }.

  (** component.py:449-455: splitting the simulated rows in observables and efficiency. *)
  Definition split_rows (no_eff : bool) (rows : list (list fl)) : list (list fl) * list fl :=
    if no_eff then (rows, map (fun _ => Fin 1) rows)
    else (map (@removelast fl) rows, map (fun r => last r NaN) rows).

  (** component.py:440-464 ComponentSim.simulate_hist; [sim] is the compiled function. *)
  Definition sim_hist {K} (c : cnum) (sim : K -> nat -> params -> result (K * list (list fl)))
      (key : K) (batch_size : nat) (p : params) : result (K * list fl) :=
    match sim key batch_size p with
    | Err e => Err e
    | Ok (key', rows) =>
        let '(mc, eff) := split_rows (n_no_eff c) rows in
        if forallb (fun r => Nat.eqb (List.length r) (ndim (n_bins c))) mc then
          match implement_binning (n_add_eps c) (n_bins c) mc eff with
          | Err e => Err e
          | Ok h =>
              match get_normalization (n_norm c) (n_rate c) (n_mcinput c) h p batch_size with
              | Err e => Err e
              | Ok f => Ok (key', scale f h)
              end
          end
        else Err AssertionError
    end.

  (** component.py:610-615 ComponentFixed.deduce: the fixed histogram. *)
  Definition fixed_deduce (c : cnum) (data : list (list fl)) : result (list fl) :=
    implement_binning (n_add_eps c) (n_bins c) data (map (fun _ => Fin 1) data).

  (** component.py:621-624 ComponentFixed.simulate_hist. A fixed component has no plugin registry,
      so norm_type on_sim is an AttributeError. *)
  Definition fixed_hist (c : cnum) (data : list (list fl)) (p : params) : result (list fl) :=
    match fixed_deduce c data with
    | Err e => Err e
    | Ok h =>
        match get_normalization (n_norm c) (n_rate c) (Err AttributeError) h p (List.length data) with
        | Err e => Err e
        | Ok f => Ok (scale f h)
        end
    end.

  (** min and max of one entry of self.bins (all numbers of it). *)
  Definition list_min (l : list fl) : fl := fold_right fmin PInf l.
  Definition list_max (l : list fl) : fl := fold_right fmax NInf l.
  Definition bin_values (b : binning) (i : nat) : list fl :=
    match b, i with
    | BIrreg1 e, 0 | BMesh1 e, 0 => e
    | BIrreg2 ex _, 0 => ex
    | BIrreg2 _ ry, 1 => List.concat ry
    | BMesh2 ex _, 0 => ex
    | BMesh2 _ ey, 1 => ey
    | _, _ => []
    end.

  (** component.py:71-79 _clip: strictly inside the range of the edges, on every axis. *)
  Definition inside (b : binning) (r : list fl) : bool :=
    forallb (fun i => flt (list_min (bin_values b i)) (obs i r) &&
                      flt (obs i r) (list_max (bin_values b i)))
            (seq 0 (ndim b)).

  (** component.py:75-77: [self.bins[i]] for every column but the last; more columns than axes are
      an IndexError. (All events have the same number of columns.) *)
  Definition too_wide (b : binning) (w : nat) : bool := Nat.ltb (ndim b) w.

  (** component.py:466-484 ComponentSim.simulate_weighted_data. The rows returned end with the
      weight. Lines 472-480 always take the last column for the efficiency, also with
      force_no_eff. *)
  Definition sim_weighted {K} (c : cnum) (sim : K -> nat -> params -> result (K * list (list fl)))
      (key : K) (batch_size : nat) (p : params) : result (K * list (list fl)) :=
    match sim key batch_size p with
    | Err e => Err e
    | Ok (key', rows) =>
        if existsb (fun r => too_wide (n_bins c) (List.length r - 1)) rows then Err IndexError
        else if forallb (fun r => Nat.eqb (List.length r - 1) (ndim (n_bins c))) rows then
          let kept := filter (inside (n_bins c)) rows in
          let mc := map (@removelast fl) kept in
          let eff := map (fun r => last r NaN) kept in
          match implement_binning (n_add_eps c) (n_bins c) mc eff with
          | Err e => Err e
          | Ok h =>
              match get_normalization (n_norm c) (n_rate c) (n_mcinput c) h p batch_size with
              | Err e => Err e
              | Ok f => Ok (key', map (fun re => fst re ++ [fmul (snd re) f]) (combine mc eff))
              end
          end
        else Err AssertionError
    end.

  (** component.py:626-635 ComponentFixed.simulate_weighted_data; the normalisation uses the full
      histogram made by deduce. *)
  Definition fixed_weighted (c : cnum) (data : list (list fl)) (p : params)
    : result (list (list fl)) :=
    match fixed_deduce c data with
    | Err e => Err e
    | Ok h =>
        if existsb (fun r => too_wide (n_bins c) (List.length r)) data then Err IndexError
        else match get_normalization (n_norm c) (n_rate c) (Err AttributeError) h p (List.length data) with
        | Err e => Err e
        | Ok f => Ok (map (fun r => r ++ [fmul (Fin 1) f]) (filter (inside (n_bins c)) data))
        end
    end.
End Component.

(** component.py:89-109 multiple_simulations. [sim] returns the columns; with apply_eff only the
    entries with positive last column are kept. [negative or zero times] is an AssertionError. *)
Definition keep_positive (cols : list (list fl)) : list (list fl) :=
  let mask := map (fun e => flt (Fin 0) e) (last cols []) in
  map (fun col => map fst (filter (fun xm => snd xm) (combine col mask))) cols.

Fixpoint pile {K} (sim : K -> nat -> params -> result (K * list (list fl))) (no_eff apply_eff : bool)
    (times : nat) (key : K) (batch_size : nat) (p : params) (acc : list (list (list fl)))
  : result (K * list (list (list fl))) :=
  match times with
  | 0 => Ok (key, acc)
  | S n =>
      match sim key batch_size p with
      | Err e => Err e
      | Ok (key', cols) =>
          if apply_eff && no_eff then Err RuntimeError
          else pile sim no_eff apply_eff n key' batch_size p
                 (acc ++ [if apply_eff then keep_positive cols else cols])
      end
  end.

(** component.py:106-108: [np.hstack([results_pile[j][i] for j in range(times)]) for i in
    range(len(results))], where [results] is the last run. An index out of range is an
    IndexError. *)
Fixpoint column (i : nat) (runs : list (list (list fl))) : result (list fl) :=
  match runs with
  | [] => Ok []
  | r :: runs' =>
      match nth_error r i with
      | None => Err IndexError
      | Some col => match column i runs' with Ok l => Ok (col ++ l) | Err e => Err e end
      end
  end.
Fixpoint columns (is : list nat) (runs : list (list (list fl))) : result (list (list fl)) :=
  match is with
  | [] => Ok []
  | i :: is' =>
      match column i runs with
      | Err e => Err e
      | Ok c => match columns is' runs with Ok cs => Ok (c :: cs) | Err e => Err e end
      end
  end.
Definition hstack_runs (runs : list (list (list fl))) : result (list (list fl)) :=
  columns (seq 0 (List.length (last runs []))) runs.

Definition multiple_simulations {K} (sim : K -> nat -> params -> result (K * list (list fl)))
    (no_eff apply_eff : bool) (times : nat) (key : K) (batch_size : nat) (p : params)
  : result (K * list (list fl)) :=
  match times with
  | 0 => Err AssertionError
  | _ =>
      match pile sim no_eff apply_eff times key batch_size p [] with
      | Err e => Err e
      | Ok (key', runs) =>
          match hstack_runs runs with Ok cols => Ok (key', cols) | Err e => Err e end
      end
  end.

(* ------------------------------------------------------------------ *)
(** * Aliases *)

(** likelihood.py:281-291 replace_alias on the copied dictionary: [_parameters[v] =
    _parameters.pop(k)] for each alias in order. *)
Fixpoint replace_alias {V} (alias : dict string) (p : dict V) : dict V :=
  match alias with
  | [] => p
  | (k, v) :: rest =>
      match get k p with
      | Some x => replace_alias rest (set v x (del k p))
      | None => replace_alias rest p
      end
  end.

(** The same with Python objects: [heap] holds the dictionaries, [l] is the caller's one;
    deepcopy (line 287) allocates a new one, and the loop updates that one in place. The result
    is its location. *)
Definition heap := list params.
Definition heap_get (h : heap) (l : nat) : params := nth l h [].
Fixpoint heap_set (l : nat) (p : params) (h : heap) : heap :=
  match h, l with
  | [], _ => []
  | _ :: h', 0 => p :: h'
  | q :: h', S l' => q :: heap_set l' p h'
  end.
Fixpoint alias_loop (alias : dict string) (l : nat) (h : heap) : heap :=
  match alias with
  | [] => h
  | (k, v) :: rest =>
      match get k (heap_get h l) with
      | Some x =>
          let h1 := heap_set l (del k (heap_get h l)) h in
          alias_loop rest l (heap_set l (set v x (heap_get h1 l)) h1)
      | None => alias_loop rest l h
      end
  end.
Definition replace_alias_heap (alias : dict string) (l : nat) (h : heap) : heap * nat :=
  let l' := List.length h in
  (alias_loop alias l' (h ++ [heap_get h l]), l').

(* ------------------------------------------------------------------ *)
(** * Likelihood *)

(** A registered component as the likelihood uses it. [LOther] is neither ComponentSim nor
    ComponentFixed. *)
Inductive lkind (K : Type) :=
| LSim (hist : K -> nat -> params -> result (K * list fl))
| LFixed (hist : params -> result (list fl))
| LOther.
Arguments LSim {K} _.
Arguments LFixed {K} _.
Arguments LOther {K}.

Record lcomp (K : Type) := mk_lcomp {
  l_needed : list string;          (* needed_parameters of the component *)
  l_kind : lkind K
}.
Arguments mk_lcomp {K} _ _.
Arguments l_needed {K} _.
Arguments l_kind {K} _.

(** likelihood.py:49-100 the state of a likelihood after construction. *)
Record llh (K : Type) := mk_llh {
  ll_components : dict (lcomp K);
  ll_needed : list string;         (* a set: no repetitions, order irrelevant *)
  ll_alias : dict string;
  ll_data : list fl                (* data_hist *)
}.
Arguments mk_llh {K} _ _ _ _.
Arguments ll_components {K} _.
Arguments ll_needed {K} _.
Arguments ll_alias {K} _.
Arguments ll_data {K} _.

(** likelihood.py:275-279 *)
Fixpoint alias_needed (alias : dict string) (needed : list string) : list string :=
  match alias with
  | [] => needed
  | (k, v) :: rest =>
      if mem v needed then alias_needed rest (del_name v (add1 k needed))
      else alias_needed rest needed
  end.

(** likelihood.py:239-279 register_component. [construct] is the outcome of creating, deducing and
    compiling the component (lines 255-269). *)
Definition register_component {K} (name : string) (construct : result (lcomp K)) (L : llh K)
  : llh K * result unit :=
  if has name (ll_components L) then (L, Err ValueError)
  else match construct with
       | Err e => (L, Err e)
       | Ok c =>
           (mk_llh (set name c (ll_components L))
                   (alias_needed (ll_alias L) (union (ll_needed L) (l_needed c)))
                   (ll_alias L) (ll_data L), Ok tt)
       end.

(** numpy in-place addition; different shapes are a ValueError (broadcasting is not modelled). *)
Definition iadd (h h' : list fl) : result (list fl) :=
  if Nat.eqb (List.length h) (List.length h')
  then Ok (map (fun p => fadd (fst p) (snd p)) (combine h h'))
  else Err ValueError.

(** likelihood.py:307-316 the loop over the components. *)
Fixpoint sum_components {K} (cs : dict (lcomp K)) (key : K) (batch_size : nat) (p : params)
    (h : list fl) : result (K * list fl) :=
  match cs with
  | [] => Ok (key, h)
  | (_, c) :: rest =>
      let r := match l_kind c with
               | LSim f => f key batch_size p
               | LFixed f => match f p with Ok x => Ok (key, x) | Err e => Err e end
               | LOther => Err TypeError
               end in
      match r with
      | Err e => Err e
      | Ok (key', x) =>
          match iadd h x with
          | Err e => Err e
          | Ok h' => sum_components rest key' batch_size p h'
          end
      end
  end.

(** likelihood.py:298-317 _simulate_model_hist; the decorator (lines 25-43) replaces aliases. *)
Definition simulate_model_hist {K} (L : llh K) (key : K) (batch_size : nat) (p : params)
  : result (K * list fl) :=
  sum_components (ll_components L) key batch_size (replace_alias (ll_alias L) p)
    (map (fun _ => Fin 0) (ll_data L)).

(** likelihood.py:370 *)
Definition poisson_sum (data model : list fl) : fl :=
  fsum (map (fun dm => fsub (fmul (fst dm) (flog (snd dm))) (snd dm)) (combine data model)).

(** likelihood.py:353-374 *)
Definition log_likelihood_of {K} (data : list fl) (key : K) (h : list fl) : result (K * fl) :=
  if existsb (fun x => fle x (Fin 0)) h then Ok (key, NInf)
  else if existsb is_nan h || existsb is_inf h then Ok (key, NInf)
  else let s := poisson_sum data h in
       if is_nan s then Err ValueError else Ok (key, s).

(** likelihood.py:341-375 get_log_likelihood; aliases are replaced here and again in
    _simulate_model_hist. *)
Definition get_log_likelihood {K} (L : llh K) (key : K) (batch_size : nat) (p : params)
  : result (K * fl) :=
  match simulate_model_hist L key batch_size (replace_alias (ll_alias L) p) with
  | Err e => Err e
  | Ok (key', h) => log_likelihood_of (ll_data L) key' h
  end.

(** likelihood.py:377-388 get_num_events_accepted; [key] is the fresh key of line 386. *)
Definition get_num_events_accepted {K} (L : llh K) (key : K) (batch_size : nat) (p : params)
  : result fl :=
  match simulate_model_hist L key batch_size (replace_alias (ll_alias L) p) with
  | Err e => Err e
  | Ok (_, h) => Ok (fsum h)
  end.

(* ------------------------------------------------------------------ *)
(** * Weighted data *)

(** A registered component as simulate_weighted_data uses it: what its own
    simulate_weighted_data does. *)
Inductive wkind (K : Type) :=
| WSim (data : K -> nat -> params -> result (K * list (list fl)))
| WFixed (data : params -> result (list (list fl)))
| WOther.
Arguments WSim {K} _.
Arguments WFixed {K} _.
Arguments WOther {K}.

(** likelihood.py:329-337 the loop over the components: one list of rows for each. *)
Fixpoint weighted_components {K} (cs : dict (wkind K)) (key : K) (batch_size : nat) (p : params)
  : result (K * list (list (list fl))) :=
  match cs with
  | [] => Ok (key, [])
  | (_, c) :: rest =>
      match (match c with
             | WSim f => f key batch_size p
             | WFixed f => match f p with Ok x => Ok (key, x) | Err e => Err e end
             | WOther => Err TypeError
             end) with
      | Err e => Err e
      | Ok (key', x) =>
          match weighted_components rest key' batch_size p with
          | Err e => Err e
          | Ok (key'', xs) => Ok (key'', x :: xs)
          end
      end
  end.

(** likelihood.py:319-339 simulate_weighted_data; the decorator (lines 25-43) replaces aliases.
    np.hstack joins the events of the components one after the other; without a component it is a
    ValueError. (The components have the same number of columns: the binned observables and the
    weight.) *)
Definition simulate_weighted_data {K} (alias : dict string) (cs : dict (wkind K)) (key : K)
    (batch_size : nat) (p : params) : result (K * list (list fl)) :=
  match weighted_components cs key batch_size (replace_alias alias p) with
  | Err e => Err e
  | Ok (key', parts) =>
      match parts with [] => Err ValueError | _ => Ok (key', List.concat parts) end
  end.

(* ------------------------------------------------------------------ *)
(** * LikelihoodLit *)

(** likelihood.py:532-537 register_component of LikelihoodLit: at most one component. *)
Definition lit_register_component {K} (name : string) (construct : result (lcomp K)) (L : llh K)
  : llh K * result unit :=
  match ll_components L with
  | [] => register_component name construct L
  | _ => (L, Err AssertionError)
  end.
