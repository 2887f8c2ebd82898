(** Vocabulary for fits (C100, C101). *)
From Coq Require Import Reals.
From Verif Require Import Base ModelFloat ModelParameter ModelContext ModelFit SpecParameter.
Local Open Scope list_scope.

(** Two states of a parameter manager that differ at most in the values of the fitted parameters. *)
Definition same_but_fit (st st' : pstate) : Prop :=
  p_config st' = p_config st /\ p_fit st' = p_fit st /\ p_fixed st' = p_fixed st /\
  keys (p_values st') = keys (p_values st) /\
  forall n, ~ In n (p_fit st) -> get n (p_values st') = get n (p_values st).

(** A parameter manager for its configuration: one value for each parameter, the fitted ones are those not fixed. *)
Definition manages (st : pstate) : Prop :=
  NoDup (p_fit st) /\ NoDup (keys (p_config st)) /\ keys (p_values st) = keys (p_config st) /\
  (forall n, In n (p_fit st) <-> is_free (p_config st) n).

(** A finite value in its allowed range for each of the parameters. *)
Definition allowed (cfg : dict setting) (names : list string) (q : list fl) : Prop :=
  Forall2 (fun n v => exists s r, get n cfg = Some s /\ v = Fin r /\ in_range s v) names q.

(** The values recorded with a position are those of one evaluation of the log posterior there, with the other parameters
    at the values of [st]. *)
Definition evaluated {K} (sigmas : fl -> fl -> result (fl * fl)) (ls : dict (llh_fun K)) (fresh : nat -> nat -> K)
    (batch times : nat) (st : pstate) (w : walker) : Prop :=
  exists i st1 st2 cs, same_but_fit st st1 /\
    log_posterior K sigmas ls (fresh i) st1 (combine (parameter_fit st) (w_pos w)) batch times
    = (st2, cs, Ok (w_logp w, w_prior w)).

(** Moves that propose positions of the right dimension. *)
Definition moves_in {Rng} (ndim : nat) (mv : moves Rng) : Prop :=
  forall g m g1 g2 n parts g3 p g4 pos ps g5 q,
    mv g = (m, g1) -> mv_parts Rng m g2 n = (parts, g3) -> In p parts -> p g4 pos = (ps, g5) -> In (Some q) ps ->
    List.length (q_pos q) = ndim.

(** The iterations in the backend of a sampler. *)
Definition recorded {Rng} (x : fctx Rng) (s : sampler Rng) : list (list walker) :=
  match (match s_mem Rng s with Some b => Some b | None => x_file Rng x end) with
  | Some b => b_steps Rng b
  | None => []
  end.

(** From one iteration to the next no walker gets the log posterior minus infinity. *)
Definition keeps (l l' : list walker) : Prop :=
  Forall2 (fun w w' => w_logp w <> NInf -> w_logp w' <> NInf) l l'.

(** numpy's normal distribution with a finite mean and a positive width gives finite numbers. *)
Definition normal_finite {Rng} (normal : fl -> fl -> Rng -> result (fl * Rng)) : Prop :=
  forall m sd g, (0 < sd)%R -> exists v g', normal (Fin m) (Fin sd) g = Ok (Fin v, g').

(** A context that can be fitted: every parameter has an initial guess and a range or a fixed value, and is needed. *)
Definition fittable {Rng} (x : fctx Rng) : Prop :=
  manages (x_pars Rng x) /\ (forall n s, get n (p_config (x_pars Rng x)) = Some s -> startable s) /\
  (forall n, In n (keys (p_values (x_pars Rng x))) -> In n (x_needed Rng x)).

(** What is stored of a run: the shape, the iterations and the state of the generator. *)
Definition content {Rng} (x : fctx Rng) : option ((nat * nat) * list (list walker) * option Rng) :=
  option_map (fun b => (b_shape Rng b, b_steps Rng b, b_rng Rng b)) (x_file Rng x).

(** A context with a run in its file that can be continued. *)
Definition in_progress {Rng} (x : fctx Rng) : Prop :=
  manages (x_pars Rng x) /\ x_h5 Rng x = true /\
  (exists s, x_sampler Rng x = Some s /\ s_mem Rng s = None) /\
  (exists nw steps g, content x = Some (nw, List.length (parameter_fit (x_pars Rng x)), steps, Some g) /\
     nw <> 0%nat /\ steps <> [] /\
     forall l, In l steps -> List.length l = nw /\
       forall w, In w l -> List.length (w_pos w) = List.length (parameter_fit (x_pars Rng x)) /\ w_logp w <> NaN) /\
  (forall c, x_cache Rng x = Some c -> c <> [] /\ forall v lp, In (v, lp) c -> lp <> NaN).
