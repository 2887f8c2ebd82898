(** Model of appletree/context.py (class Context). No proofs in this file.
    Not modelled: the emcee sampler itself (a chain is whatever it produced), HDF5 files other than
    the text stored in them, printing. *)
From Coq Require Import Reals.
From Verif Require Import Base ModelFloat ModelParameter ModelLikelihood.
Local Open Scope string_scope.
Local Open Scope list_scope.

(* ------------------------------------------------------------------ *)
(** * log_posterior *)

Section Posterior.
  Variable K : Type.
  (** get_log_likelihood of one likelihood: any behaviour. *)
  Definition llh_fun := K -> nat -> params -> result (K * fl).
  (** One call of it, as seen from outside: which likelihood, key, batch size, parameters. *)
  Record call := mk_call { c_name : string; c_key : K; c_batch : nat; c_params : params }.

  (** context.py 180-187: the loop over the likelihoods, with the calls made. *)
  Fixpoint llh_loop (ls : dict llh_fun) (k : K) (batch : nat) (p : params) (acc : fl)
      : list call * result fl :=
    match ls with
    | [] => ([], Ok acc)
    | (n, f) :: rest =>
        let c := mk_call n k batch p in
        match f k batch p with
        | Err e => ([c], Err e)
        | Ok (k', x) =>
            let '(cs, r) := llh_loop rest k' batch p (fadd acc x) in (c :: cs, r)
        end
    end.

  (** context.py 177-190: _log_posterior_once; [k] is the key made by randgen.get_key(). *)
  Definition posterior_once (ls : dict llh_fun) (prior : fl) (k : K) (batch : nat) (p : params)
      : list call * result fl :=
    let '(cs, r) := llh_loop ls k batch p (Fin 0) in
    (cs, do x <- r; Ok (fadd x prior)).

  (** context.py 193-195: the repetitions; [fresh i] is the key of the i-th call of get_key. *)
  Fixpoint repeat_once (ls : dict llh_fun) (prior : fl) (fresh : nat -> K) (batch : nat) (p : params)
      (times i : nat) : list call * result (list fl) :=
    match times with
    | 0 => ([], Ok [])
    | S t =>
        match posterior_once ls prior (fresh i) batch p with
        | (cs, Err e) => (cs, Err e)
        | (cs, Ok x) =>
            let '(cs', r) := repeat_once ls prior fresh batch p t (S i) in
            (cs ++ cs', do xs <- r; Ok (x :: xs))
        end
    end.

  (** context.py 163-199: log_posterior. A repeat_times below 1 is like 1. *)
  Definition log_posterior (sigmas : fl -> fl -> result (fl * fl)) (ls : dict llh_fun)
      (fresh : nat -> K) (st : pstate) (pars : dict fl) (batch times : nat)
      : pstate * list call * result (fl * fl) :=
    match set_parameter st (KDict pars) VNone with
    | (st', Err e) => (st', [], Err e)
    | (st', Ok _) =>
        match log_prior sigmas st' with
        | Err e => (st', [], Err e)
        | Ok prior =>
            if negb (is_fin prior) then (st', [], Ok (NInf, prior))
            else if Nat.ltb 1 times then
              let '(cs, r) := repeat_once ls prior fresh batch (p_values st') times 0 in
              (st', cs, do xs <- r; Ok (fmean xs, prior))
            else
              let '(cs, r) := posterior_once ls prior (fresh 0) batch (p_values st') in
              (st', cs, do x <- r; Ok (x, prior))
        end
    end.
End Posterior.
Arguments mk_call {K} _ _ _ _.
Arguments c_name {K} _.
Arguments c_key {K} _.
Arguments c_batch {K} _.
Arguments c_params {K} _.

(* ------------------------------------------------------------------ *)
(** * Construction *)

(** context.py 445-455: the copy loops; [copies] are the copy_parameters tables of the likelihoods
    one after the other. Returns the new configuration; a missing source is a KeyError. *)
Fixpoint copy_loop {V} (copies : list (string * string)) (cfg : dict V) : result (dict V) :=
  match copies with
  | [] => Ok cfg
  | (k, v) :: rest => do x <- key (get v cfg); copy_loop rest (set k x cfg)
  end.

(** context.py 458-461: dropping the sources. *)
Fixpoint drop_loop {V} (from rates : list string) (cfg : dict V) : dict V :=
  match from with
  | [] => cfg
  | p :: rest =>
      if negb (mem p rates) && has p cfg then drop_loop rest rates (del p cfg)
      else drop_loop rest rates cfg
  end.

(** What update_parameter_config reads of a likelihood's instruction: copy_parameters and the
    names of the components. *)
Record linstr := mk_linstr { i_copy : dict string; i_components : list string }.

(** context.py 445-462: update_parameter_config: the configuration and needed_parameters. *)
Definition update_parameter_config {V} (ls : dict linstr) (cfg : dict V) : result (dict V * list string) :=
  let copies := flat_map (fun nl => i_copy (snd nl)) ls in
  let rates := flat_map (fun nl => map (fun c => c ++ "_rate")%string (i_components (snd nl))) ls in
  do cfg1 <- copy_loop copies cfg;
  Ok (drop_loop (map snd copies) rates cfg1, union [] (map fst copies)).

(** A context: its likelihoods and needed_parameters. *)
Record ctx (K : Type) := mk_ctx { x_llhs : dict (llh K); x_needed : list string }.
Arguments mk_ctx {K} _ _.
Arguments x_llhs {K} _.
Arguments x_needed {K} _.

(** context.py 103-117: register_likelihood; [build] is the outcome of constructing it. *)
Definition ctx_register_likelihood {K} (name : string) (build : result (llh K)) (c : ctx K)
    : ctx K * result unit :=
  if has name (x_llhs c) then (c, Err ValueError)
  else match build with
       | Err e => (c, Err e)
       | Ok L => (mk_ctx (set name L (x_llhs c)) (x_needed c), Ok tt)
       end.

(** context.py 119-134: register_component. *)
Definition ctx_register_component {K} (lname name : string) (construct : result (lcomp K)) (c : ctx K)
    : ctx K * result unit :=
  match get lname (x_llhs c) with
  | None => (c, Err KeyError)
  | Some L =>
      match register_component name construct L with
      | (L', Err e) => (mk_ctx (set lname L' (x_llhs c)) (x_needed c), Err e)
      | (L', Ok _) => (mk_ctx (set lname L' (x_llhs c)) (union (x_needed c) (ll_needed L')), Ok tt)
      end
  end.

(** context.py 418-428: _sanity_check. *)
Definition sanity_check (needed provided : list string) : result unit :=
  if forallb (fun p => mem p needed) provided then Ok tt else Err RuntimeError.

(* ------------------------------------------------------------------ *)
(** * Reading the chain *)

(** The flattened chain of the sampler: parameter vectors with their log probability. *)
Definition chain := list (list fl * fl).

(** np.argmax: the first maximum; a NaN counts as larger than everything. *)
Definition beats (x y : fl) : bool := if is_nan y then false else is_nan x || flt y x.
Fixpoint argmax_from (i best : nat) (bv : fl) (l : list fl) : nat :=
  match l with
  | [] => best
  | x :: l' => if beats x bv then argmax_from (S i) i x l' else argmax_from (S i) best bv l'
  end.
Definition argmax (l : list fl) : result nat :=
  match l with
  | [] => Err ValueError
  | x :: l' => Ok (argmax_from 1 0 x l')
  end.

(** A context around fitting: the sampler's chain ([None]: no sampler yet), the cached _logp and
    _chain, and whether a backend file is used. *)
Record fitctx := mk_fitctx {
  f_chain : option chain;
  f_cache : option chain;
  f_backend : bool
}.

(** context.py 327-330: filling the cache. *)
Definition read_cache (f : fitctx) : result (fitctx * chain) :=
  match f_cache f with
  | Some c => Ok (f, c)
  | None =>
      do c <- match f_chain f with Some c => Ok c | None => Err AttributeError end;
      Ok (mk_fitctx (f_chain f) (Some c) (f_backend f), c)
  end.

(** np.sort of numbers without NaN. *)
Fixpoint insert_fl (x : fl) (l : list fl) : list fl :=
  match l with
  | [] => [x]
  | y :: l' => if fle x y then x :: l else y :: insert_fl x l'
  end.
Fixpoint sort_fl (l : list fl) : list fl :=
  match l with
  | [] => []
  | x :: l' => insert_fl x (sort_fl l')
  end.

(** np.median of an array: NaN if there is a NaN or nothing in it, the middle one of the sorted numbers, or the mean of
    the two in the middle. *)
Definition np_median (l : list fl) : fl :=
  if existsb is_nan l then NaN
  else
    let s := sort_fl l in
    let n := List.length s in
    let h := Nat.div n 2 in
    match l with
    | [] => NaN
    | _ => if Nat.odd n then nth h s NaN else fdiv (fadd (nth (h - 1) s NaN) (nth h s NaN)) (Fin 2)
    end.

(** One row of the chain; np.median(chain, axis=0): all rows have the length of the first. *)
Definition row (c : chain) (i : nat) : result (list fl) :=
  match nth_error c i with None => Err IndexError | Some (v, _) => Ok v end.
Definition medians (c : chain) : list fl :=
  match c with
  | [] => []
  | (v, _) :: _ => map (fun j => np_median (map (fun s => nth j (fst s) NaN) c)) (seq 0 (List.length v))
  end.

Inductive which := Mpe | RandomAt (i : nat) | Median | WhichOther.

(** context.py 331-338: the values of the fitted parameters, for 'mpe', for 'random' with the index drawn (numpy's randint
    of 0 is a ValueError), for 'median', and for an unknown choice. *)
Definition chosen (w : which) (c : chain) : result (list fl) :=
  match w with
  | Mpe => do i <- argmax (map snd c); row c i
  | RandomAt i => match c with [] => Err ValueError | _ => row c i end
  | Median => Ok (medians c)
  | WhichOther => Err ValueError
  end.

(** context.py 315-345: get_post_parameters. [names] is sampler.parameter_names, [pars] the parameter manager's values. *)
Definition get_post_parameters (w : which) (names : list string) (pars : dict fl) (f : fitctx)
    : result (fitctx * dict fl) :=
  do fc <- read_cache f;
  let '(f', c) := fc in
  do v <- chosen w c;
  Ok (f', update pars (combine names v)).

(** One operation on a context: a (new) fit, a continuation of itself or from another context,
    reading. [c] are the samples the run produced. *)
Inductive fop := Fit (c : chain) | ContinueSelf (c : chain) | ContinueOther (c : chain) | Read (w : which).

(** context.py 358-390: _dump_meta reads the posterior parameters if there is a backend. *)
Definition dump_meta (f : fitctx) : fitctx :=
  if f_backend f then match read_cache f with Ok (f', _) => f' | Err _ => f end else f.

(** context.py 237-313: fitting and continue_fitting replace the sampler. emcee's part: with a
    backend file the run appends to the chain in it (reset by fitting); without one the new sampler
    starts empty, so that run_mcmc(None) of a continuation of itself is a ValueError and reading
    the chain afterwards an AttributeError. *)
Definition fstep (f : fitctx) (o : fop) : fitctx * result unit :=
  match o with
  | Fit c => (dump_meta (mk_fitctx (Some c) (f_cache f) (f_backend f)), Ok tt)
  | ContinueSelf c =>
      match f_chain f with
      | None => (f, Err AttributeError)
      | Some c0 =>
          if f_backend f then (dump_meta (mk_fitctx (Some (c0 ++ c)) (f_cache f) true), Ok tt)
          else (mk_fitctx None (f_cache f) false, Err ValueError)
      end
  | ContinueOther c =>
      let c0 := match f_chain f with Some c0 => if f_backend f then c0 else [] | None => [] end in
      (dump_meta (mk_fitctx (Some (c0 ++ c)) (f_cache f) (f_backend f)), Ok tt)
  | Read w =>
      match read_cache f with
      | Ok (f', _) => (f', match w with WhichOther => Err ValueError | _ => Ok tt end)
      | Err e => (f, Err e)
      end
  end.

Definition frun (f : fitctx) (ops : list fop) : fitctx := fold_left (fun f o => fst (fstep f o)) ops f.
