(** Model of a fit: Context.pre_fitting, fitting, continue_fitting and _dump_meta (appletree/context.py, lines 200 to 313
    and 358 to 390), together with the part of emcee they use (EnsembleSampler, its moves, Backend and HDFBackend).
    No proofs in this file.
    Simplifications: numbers are idealised floats; a move is any function of the state of the random generator and of the
    coordinates of the walkers; the test of the initial coordinates (walkers_independent) is arbitrary; the log prior is
    stored without rounding to 32 bits; iterations and numbers of walkers are natural numbers; the acceptance fraction,
    the autocorrelation time, the version and the date in the file are left out; printing is left out. *)
From Coq Require Import Reals.
From Verif Require Import Base ModelFloat ModelParameter ModelLikelihood ModelContext.
Local Open Scope string_scope.
Local Open Scope list_scope.

(** One walker of the sampler: coordinates, log posterior and the blob, which is the log prior (context.py:172, 198). *)
Record walker := mk_walker { w_pos : list fl; w_logp : fl; w_prior : fl }.

(** A proposed position, the logarithm of the factor of the move, and the logarithm of the uniform number drawn for it. *)
Record proposal := mk_proposal { q_pos : list fl; q_factor : fl; q_logu : fl }.

(** emcee.moves: the moves on two or more parts of the ensemble, with their flag live_dangerously, and those of the
    Metropolis type, which may know their dimension. *)
Inductive kind := RedBlue (live : bool) | MH (dim : option nat).

(** What _dump_meta has written; [None] for an attribute that is missing. *)
Record meta := mk_meta {
  m_config : option (dict setting);
  m_post : option (dict fl);
  m_names : option (list string);
  m_batch : option nat
}.
Definition no_meta : meta := mk_meta None None None None.

Section Fit.
  Variables K Rng : Type.
  (** numpy's global generator. *)
  Variable normal : fl -> fl -> Rng -> result (fl * Rng).
  (** utils.errors_to_two_half_norm_sigmas *)
  Variable sigmas : fl -> fl -> result (fl * fl).
  (** The likelihoods of the context. *)
  Variable ls : dict (llh_fun K).
  (** [fresh i j] is the key that the j-th call of get_key makes in the i-th evaluation of the log posterior. *)
  Variable fresh : nat -> nat -> K.
  (** emcee.ensemble.walkers_independent *)
  Variable independent : list (list fl) -> result bool.

  (** One part of a move: which walkers get which proposal. *)
  Definition part := Rng -> list (list fl) -> list (option proposal) * Rng.
  (** A move prepares its parts for a number of walkers. *)
  Record move := mk_move { mv_kind : kind; mv_parts : Rng -> nat -> list part * Rng }.
  (** The argument [moves]: the sampler draws one move for each step. *)
  Definition moves := Rng -> move * Rng.

  (** An emcee backend, in memory or in a file: its shape, the iterations, the last state of the generator, and the
      attributes. *)
  Record backend := mk_backend {
    b_shape : nat * nat;
    b_steps : list (list walker);
    b_rng : option Rng;
    b_meta : meta
  }.

  (** emcee.EnsembleSampler: the names, the backend in memory ([None]: the file), the generator, and _previous_state. *)
  Record sampler := mk_sampler {
    s_names : list string;
    s_mem : option backend;
    s_rng : Rng;
    s_prev : option (list walker * option Rng)
  }.

  (** A context around fitting: par_manager, needed_parameters, whether backend_h5 is given, the content of that file
      ([None]: no file, or no group in it), the sampler ([None]: no attribute), the cached _logp and _chain, numpy's
      global generator, and the number of evaluations of the log posterior so far. *)
  Record fctx := mk_fctx {
    x_pars : pstate;
    x_needed : list string;
    x_h5 : bool;
    x_file : option backend;
    x_sampler : option sampler;
    x_cache : option chain;
    x_global : Rng;
    x_calls : nat
  }.

  Definition with_pars (x : fctx) (st : pstate) (g : Rng) (n : nat) : fctx :=
    mk_fctx st (x_needed x) (x_h5 x) (x_file x) (x_sampler x) (x_cache x) g n.
  Definition with_file (x : fctx) (f : option backend) : fctx :=
    mk_fctx (x_pars x) (x_needed x) (x_h5 x) f (x_sampler x) (x_cache x) (x_global x) (x_calls x).
  Definition with_sampler (x : fctx) (s : sampler) : fctx :=
    mk_fctx (x_pars x) (x_needed x) (x_h5 x) (x_file x) (Some s) (x_cache x) (x_global x) (x_calls x).

  (* ---------------------------------------------------------------- *)
  (** * Evaluating the log posterior of proposals (emcee EnsembleSampler.compute_log_prob) *)

  Section Run.
    (** The keyword arguments given to the sampler, and its parameter names. *)
    Variables batch times : nat.
    Variable names : list string.

    (** The state of the parameter manager and the number of evaluations. *)
    Definition ev := (pstate * nat)%type.

    (** One call of context.py:163-198 with a position as dictionary. *)
    Definition eval_one (e : ev) (q : list fl) : ev * result (fl * fl) :=
      let '(st', _, r) := log_posterior K sigmas ls (fresh (snd e)) (fst e) (combine names q) batch times in
      ((st', S (snd e)), r).

    Fixpoint eval_list (e : ev) (qs : list (list fl)) : ev * result (list (fl * fl)) :=
      match qs with
      | [] => (e, Ok [])
      | q :: rest =>
          match eval_one e q with
          | (e', Err x) => (e', Err x)
          | (e', Ok r) =>
              match eval_list e' rest with
              | (e'', Err x) => (e'', Err x)
              | (e'', Ok rs) => (e'', Ok (r :: rs))
              end
          end
      end.

    (** Coordinates that are not finite and log posteriors that are NaN are a ValueError. *)
    Definition compute_log_prob (e : ev) (qs : list (list fl)) : ev * result (list (fl * fl)) :=
      if negb (forallb (forallb is_fin) qs) then (e, Err ValueError)
      else match eval_list e qs with
           | (e', Err x) => (e', Err x)
           | (e', Ok rs) => if existsb (fun r => is_nan (fst r)) rs then (e', Err ValueError) else (e', Ok rs)
           end.

    (* -------------------------------------------------------------- *)
    (** * One step (emcee.moves, propose and update) *)

    (** The proposed positions of a part, in the order of the walkers. *)
    Fixpoint proposed (ps : list (option proposal)) : list (list fl) :=
      match ps with
      | [] => []
      | None :: rest => proposed rest
      | Some q :: rest => q_pos q :: proposed rest
      end.

    (** red_blue.py: lnpdiff = f + nlp - state.log_prob[j]; mh.py: new_log_probs - state.log_prob + factors; accepted if
        it is above the logarithm of the uniform number. *)
    Definition log_ratio (k : kind) (w : walker) (q : proposal) (r : fl * fl) : fl :=
      match k with
      | RedBlue _ => fsub (fadd (q_factor q) (fst r)) (w_logp w)
      | MH _ => fadd (fsub (fst r) (w_logp w)) (q_factor q)
      end.
    Definition accept (k : kind) (w : walker) (q : proposal) (r : fl * fl) : walker :=
      if flt (q_logu q) (log_ratio k w q r) then mk_walker (q_pos q) (fst r) (snd r) else w.

    (** Walkers of the part are updated, the others stay. *)
    Fixpoint update_part (k : kind) (ws : list walker) (ps : list (option proposal)) (rs : list (fl * fl)) : list walker :=
      match ws, ps with
      | w :: ws', None :: ps' => w :: update_part k ws' ps' rs
      | w :: ws', Some q :: ps' =>
          match rs with
          | r :: rs' => accept k w q r :: update_part k ws' ps' rs'
          | [] => ws
          end
      | _, _ => ws
      end.

    Fixpoint make_parts (k : kind) (parts : list part) (e : ev) (g : Rng) (ws : list walker)
        : ev * result (list walker * Rng) :=
      match parts with
      | [] => (e, Ok (ws, g))
      | p :: rest =>
          let '(ps, g') := p g (map w_pos ws) in
          match compute_log_prob e (proposed ps) with
          | (e', Err x) => (e', Err x)
          | (e', Ok rs) => make_parts k rest e' g' (update_part k ws ps rs)
          end
      end.

    (** The checks of the dimensions: at least twice as many walkers as parameters; the dimension of the move. *)
    Definition move_fits (k : kind) (nwalkers ndim : nat) : result unit :=
      match k with
      | RedBlue live => if Nat.ltb nwalkers (2 * ndim) && negb live then Err RuntimeError else Ok tt
      | MH None => Ok tt
      | MH (Some d) => if Nat.eqb d ndim then Ok tt else Err ValueError
      end.

    Definition one_step (mv : moves) (e : ev) (g : Rng) (ws : list walker) : ev * result (list walker * Rng) :=
      let '(m, g1) := mv g in
      match move_fits (mv_kind m) (List.length ws) (List.length names) with
      | Err x => (e, Err x)
      | Ok _ =>
          let '(parts, g2) := mv_parts m g1 (List.length ws) in
          make_parts (mv_kind m) parts e g2 ws
      end.

    (** The iterations; each is saved with the state of the generator after it, also if a later one fails. *)
    Fixpoint run_steps (n : nat) (mv : moves) (e : ev) (g : Rng) (ws : list walker)
        : ev * list (list walker * Rng) * result (list walker * Rng) :=
      match n with
      | 0 => (e, [], Ok (ws, g))
      | S n' =>
          match one_step mv e g ws with
          | (e', Err x) => (e', [], Err x)
          | (e', Ok (ws', g')) =>
              let '(e'', saved, r) := run_steps n' mv e' g' ws' in
              (e'', (ws', g') :: saved, r)
          end
      end.

    (** Where a run starts: at positions without values, or at a state with everything. *)
    Inductive start := Positions (p0 : list (list fl)) | State (ws : list walker) (g : option Rng).

    (** The first part of EnsembleSampler.sample: shapes, the test of the positions, the values at the positions, and the
        generator of the state. *)
    Definition begin_run (nwalkers : nat) (skip : bool) (s : start) (e : ev) (g : Rng)
        : ev * result (list walker * Rng) :=
      let shape_ok (l : list (list fl)) :=
        negb (Nat.eqb nwalkers 0) && Nat.eqb (List.length l) nwalkers
        && forallb (fun q => Nat.eqb (List.length q) (List.length names)) l in
      match s with
      | Positions p0 =>
          if negb (shape_ok p0) then (e, Err ValueError)
          else match (if skip then Ok true else independent p0) with
               | Err x => (e, Err x)
               | Ok false => (e, Err ValueError)
               | Ok true =>
                   match compute_log_prob e p0 with
                   | (e', Err x) => (e', Err x)
                   | (e', Ok rs) =>
                       (e', Ok (map (fun qr => mk_walker (fst qr) (fst (snd qr)) (snd (snd qr))) (combine p0 rs), g))
                   end
               end
      | State ws g0 =>
          if negb (shape_ok (map w_pos ws)) then (e, Err ValueError)
          else match (if skip then Ok true else independent (map w_pos ws)) with
               | Err x => (e, Err x)
               | Ok false => (e, Err ValueError)
               | Ok true =>
                   if existsb (fun w => is_nan (w_logp w)) ws then (e, Err ValueError)
                   else (e, Ok (ws, match g0 with Some g' => g' | None => g end))
               end
      end.
  End Run.

  (* ---------------------------------------------------------------- *)
  (** * Backends and samplers *)

  (** Backend.reset(nwalkers, ndim): an empty backend; a group in a file is deleted before. *)
  Definition empty_backend (nwalkers ndim : nat) : backend := mk_backend (nwalkers, ndim) [] None no_meta.

  (** Backend.save_step for every saved iteration. *)
  Definition save (saved : list (list walker * Rng)) (b : backend) : backend :=
    mk_backend (b_shape b) (b_steps b ++ map fst saved)
      (match rev saved with (_, g) :: _ => Some g | [] => b_rng b end) (b_meta b).

  (** Backend.get_chain and get_log_prob: an AttributeError if nothing is stored. *)
  Definition stored (x : fctx) (s : sampler) : result (list (list walker)) :=
    match (match s_mem s with Some b => Some b | None => x_file x end) with
    | None => Err AttributeError
    | Some b => match b_steps b with [] => Err AttributeError | l => Ok l end
    end.

  (** sampler.get_chain(flat=True) with the log posteriors. *)
  Definition flat (l : list (list walker)) : chain := map (fun w => (w_pos w, w_logp w)) (List.concat l).

  (** context.py:204-235: _set_backend and pre_fitting. EnsembleSampler.__init__ makes an empty backend if there is none,
      and otherwise checks its shape, takes its generator and reads its last sample. *)
  Definition pre_fitting (nwalkers : nat) (reset : bool) (x : fctx) : fctx * result unit :=
    let names := parameter_fit (x_pars x) in
    let ndim := List.length names in
    if x_h5 x then
      let x1 := if reset then with_file x (Some (empty_backend nwalkers ndim)) else x in
      match x_file x1 with
      | None =>
          let x2 := with_file x1 (Some (empty_backend nwalkers ndim)) in
          (with_sampler x2 (mk_sampler names None (x_global x) None), Ok tt)
      | Some b =>
          if negb (Nat.eqb (fst (b_shape b)) nwalkers && Nat.eqb (snd (b_shape b)) ndim) then (x1, Err ValueError)
          else
            let g := match b_rng b with Some g => g | None => x_global x end in
            let prev := match rev (b_steps b) with ws :: _ => Some (ws, b_rng b) | [] => None end in
            (with_sampler x1 (mk_sampler names None g prev), Ok tt)
      end
    else
      (with_sampler x (mk_sampler names (Some (empty_backend nwalkers ndim)) (x_global x) None), Ok tt).

  (** EnsembleSampler.run_mcmc on the sampler of the context; [None] is initial_state=None. *)
  Definition run_mcmc (batch times nwalkers : nat) (skip : bool) (p0 : option (list (list fl))) (n : nat) (mv : moves)
      (x : fctx) : fctx * result (option (list walker)) :=
    match x_sampler x with
    | None => (x, Err AttributeError)
    | Some s =>
        match (match p0 with
               | Some l => Some (Positions l)
               | None => match s_prev s with Some (ws, g) => Some (State ws g) | None => None end
               end) with
        | None => (x, Err ValueError)
        | Some st =>
            match begin_run batch times (s_names s) nwalkers skip st (x_pars x, x_calls x) (s_rng s) with
            | (e, Err err) => (with_pars x (fst e) (x_global x) (snd e), Err err)
            | (e, Ok (ws, g)) =>
                let '(e', saved, r) := run_steps batch times (s_names s) n mv e g ws in
                let x1 := with_pars x (fst e') (x_global x) (snd e') in
                let x2 := match s_mem s with
                          | Some _ => x1
                          | None => with_file x1 (option_map (save saved) (x_file x1))
                          end in
                let mem := option_map (save saved) (s_mem s) in
                let g' := match rev saved with (_, g') :: _ => g' | [] => g end in
                match r with
                | Err err => (with_sampler x2 (mk_sampler (s_names s) mem g' (s_prev s)), Err err)
                | Ok (ws', g1) =>
                    let last := match n with 0 => None | S _ => Some ws' end in
                    (with_sampler x2 (mk_sampler (s_names s) mem g' (option_map (fun w => (w, Some g1)) last)), Ok last)
                end
            end
        end
    end.

  (** context.py:315-345 through the model of ModelContext. *)
  Definition as_fitctx (x : fctx) (s : sampler) : fitctx :=
    mk_fitctx (match stored x s with Ok l => Some (flat l) | Err _ => None end) (x_cache x) (x_h5 x).
  Definition post_parameters (w : which) (x : fctx) : fctx * result (dict fl) :=
    match x_sampler x with
    | None => (x, Err AttributeError)
    | Some s =>
        match get_post_parameters w (s_names s) (p_values (x_pars x)) (as_fitctx x s) with
        | Err e => (x, Err e)
        | Ok (f, d) =>
            (mk_fctx (x_pars x) (x_needed x) (x_h5 x) (x_file x) (x_sampler x) (f_cache f) (x_global x) (x_calls x), Ok d)
        end
    end.

  (** context.py:358-390: the attributes are written one after the other. *)
  Definition set_meta (x : fctx) (f : meta -> meta) : fctx :=
    with_file x (option_map (fun b => mk_backend (b_shape b) (b_steps b) (b_rng b) (f (b_meta b))) (x_file x)).
  Definition dump_meta (batch : nat) (x : fctx) : fctx * result unit :=
    if x_h5 x then
      let x1 := set_meta x (fun m => mk_meta (Some (p_config (x_pars x))) (m_post m) (m_names m) (m_batch m)) in
      match post_parameters Mpe x1 with
      | (x2, Err e) => (x2, Err e)
      | (x2, Ok d) =>
          (set_meta x2 (fun m => mk_meta (m_config m) (Some d) (Some (parameter_fit (x_pars x))) (Some batch)), Ok tt)
      end
    else (x, Ok tt).

  (* ---------------------------------------------------------------- *)
  (** * Fitting *)

  (** context.py:249-252: the starting positions. A failure keeps the state of the global generator (simplification). *)
  Fixpoint starts (n : nat) (st : pstate) (g : Rng) : pstate * Rng * result (list (list fl)) :=
    match n with
    | 0 => (st, g, Ok [])
    | S n' =>
        match sample_init Rng normal st g with
        | (st', Err e) => (st', g, Err e)
        | (st', Ok g') =>
            match parameter_fit_array st' with
            | Err e => (st', g', Err e)
            | Ok q =>
                let '(st'', g'', r) := starts n' st' g' in
                (st'', g'', do qs <- r; Ok (q :: qs))
            end
        end
    end.

  (** After a run: _dump_meta, then the result of the run. *)
  Definition finish (batch : nat) (xr : fctx * result (option (list walker))) : fctx * result (option (list walker)) :=
    match xr with
    | (x, Err e) => (x, Err e)
    | (x, Ok res) =>
        match dump_meta batch x with
        | (x', Err e) => (x', Err e)
        | (x', Ok _) => (x', Ok res)
        end
    end.

  (** context.py:237-271 *)
  Definition fitting (nwalkers iteration batch times : nat) (mv : moves) (x : fctx)
      : fctx * result (option (list walker)) :=
    match sanity_check (x_needed x) (keys (p_values (x_pars x))) with
    | Err e => (x, Err e)
    | Ok _ =>
        match starts nwalkers (x_pars x) (x_global x) with
        | (st, g, Err e) => (with_pars x st g (x_calls x), Err e)
        | (st, g, Ok p0) =>
            match pre_fitting nwalkers true (with_pars x st g (x_calls x)) with
            | (x1, Err e) => (x1, Err e)
            | (x1, Ok _) => finish batch (run_mcmc batch times nwalkers false (Some p0) iteration mv x1)
            end
        end
    end.

  (** context.py:273-313; [other] is the argument context. *)
  Definition continue_fitting (other : option fctx) (iteration batch times : nat) (mv : moves) (x : fctx)
      : fctx * result (option (list walker)) :=
    let source := match other with None => x | Some y => y end in
    match (do s <- match x_sampler source with Some s => Ok s | None => Err AttributeError end; stored source s) with
    | Err e => (x, Err e)
    | Ok steps =>
        let final := match rev steps with ws :: _ => ws | [] => [] end in
        let nwalkers := List.length final in
        let p0 := match other with None => None | Some _ => Some (map w_pos final) end in
        match pre_fitting nwalkers false x with
        | (x1, Err e) => (x1, Err e)
        | (x1, Ok _) => finish batch (run_mcmc batch times nwalkers true p0 iteration mv x1)
        end
    end.

  (** context.py:59-72: the end of from_backend, on a context made from the instructions in the file. *)
  Definition attach (x : fctx) : fctx * result unit :=
    match x_file x with
    | None => (x, Err KeyError)
    | Some b =>
        match m_batch (b_meta b) with
        | None => (x, Err KeyError)
        | Some _ => pre_fitting (fst (b_shape b)) false x
        end
    end.
End Fit.
