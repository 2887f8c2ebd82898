(** Model of appletree/parameter.py (class Parameter, lines 9-258).
    Simplifications: the configuration is a dictionary of typed settings whose numbers are
    numbers; a JSON file name as constructor argument is the dictionary it contains; numpy's global
    random state is a value of type [Rng] that every draw consumes and returns. No proofs here. *)
From Coq Require Import Reals.
From Verif Require Import Base ModelFloat ModelTwoHalf.
Local Open Scope string_scope.

(** One entry of par_config; a missing JSON key is [None]. *)
Record setting := mk_setting {
  s_type : option string;          (** "prior_type" *)
  s_args : option (dict fl);       (** "prior_args" *)
  s_range : option (fl * fl);      (** "allowed_range" *)
  s_mean : option fl;              (** "init_mean" *)
  s_std : option fl                (** "init_std" *)
}.

(** The attributes of a Parameter: par_config, _parameter_fixed, _parameter_fit,
    _parameter_dict. *)
Record pstate := mk_pstate {
  p_config : dict setting;
  p_fixed : list string;
  p_fit : list string;
  p_values : dict fl
}.

Definition with_values (st : pstate) (v : dict fl) : pstate :=
  mk_pstate (p_config st) (p_fixed st) (p_fit st) v.

(** [d[k]] on a dictionary. *)
Definition key {V} (o : option V) : result V :=
  match o with Some v => Ok v | None => Err KeyError end.

Notation "'do' x <- e ; f" := (bind e (fun x => f)) (at level 200, x pattern, e at level 100, f at level 200).

Section WithRandom.
  Variable Rng : Type.
  (** np.random.normal(loc, scale) and np.random.uniform(low, high): may raise ValueError. *)
  Variable normal : fl -> fl -> Rng -> result (fl * Rng).
  Variable uniform : fl -> fl -> Rng -> result (fl * Rng).
  (** utils.errors_to_two_half_norm_sigmas (utils.py 652-675): a numerical root finder. *)
  Variable sigmas : fl -> fl -> result (fl * fl).

  (** np.clip(val, *setting["allowed_range"]) *)
  Definition clip_range (s : setting) (v : fl) : result fl :=
    do r <- key (s_range s); Ok (fclip v (fst r) (snd r)).

  (** TwoHalfNorm.rvs drawing from the global state; the widths come from a numpy array, so the
      comparison yields a numpy boolean. *)
  Definition draw_twohalf (mu sp sn : fl) (g : Rng) : result (fl * Rng) :=
    if flt (Fin 0) sp && flt (Fin 0) sn then
      do ug <- uniform (Fin 0) (Fin 1) g;
      do zg <- normal (Fin 0) (Fin 1) (snd ug);
      do v <- twohalf_rvs NumpyBool (fst ug) (fst zg) mu sp sn;
      Ok (v, snd zg)
    else Err AssertionError.

  (** parameter.py 69-110: the body of sample_prior's loop for one parameter. [None] means that
      the value is left as it is (no branch matches). *)
  Definition prior_value (s : setting) (g : Rng) : result (option fl * Rng) :=
    do args <- key (s_args s);
    do ty <- key (s_type s);
    if String.eqb ty "norm" then
      do m <- key (get "mean" args);
      do sd <- key (get "std" args);
      do vg <- normal m sd g;
      do v <- clip_range s (fst vg);
      Ok (Some v, snd vg)
    else if String.eqb ty "twohalfnorm" then
      do ep <- key (get "sigma_pos" args);
      do en <- key (get "sigma_neg" args);
      do sg <- sigmas ep en;
      do mu <- key (get "mu" args);
      do vg <- draw_twohalf mu (fst sg) (snd sg) g;
      do v <- clip_range s (fst vg);
      Ok (Some v, snd vg)
    else if String.eqb ty "uniform" then
      do lo <- key (get "lower" args);
      do hi <- key (get "upper" args);
      do vg <- uniform lo hi g;
      do v <- clip_range s (fst vg);
      Ok (Some v, snd vg)
    else if String.eqb ty "free" then
      do m <- key (s_mean s);
      do sd <- key (s_std s);
      do vg <- normal m sd g;
      do v <- clip_range s (fst vg);
      Ok (Some v, snd vg)
    else if String.eqb ty "fixed" then
      do v <- key (get "val" args);
      Ok (Some v, g)
    else Ok (None, g).

  (** parameter.py 115-132: the body of sample_init's loop. *)
  Definition init_value (s : setting) (g : Rng) : result (option fl * Rng) :=
    do args <- key (s_args s);
    do ty <- key (s_type s);
    if String.eqb ty "fixed" then
      do v <- key (get "val" args);
      Ok (Some v, g)
    else
      do m <- key (s_mean s);
      do sd <- key (s_std s);
      do vg <- normal m sd g;
      do v <- clip_range s (fst vg);
      Ok (Some v, snd vg).

  (** The loop [for par_name in self._parameter_dict] of both functions. An exception leaves the
      values assigned so far. *)
  Fixpoint sample_loop (body : setting -> Rng -> result (option fl * Rng)) (cfg : dict setting)
      (names : list string) (v : dict fl) (g : Rng) : dict fl * result Rng :=
    match names with
    | [] => (v, Ok g)
    | n :: rest =>
        match get n cfg with
        | None => (v, Err RuntimeError)
        | Some s =>
            match body s g with
            | Err e => (v, Err e)
            | Ok (Some x, g') => sample_loop body cfg rest (set n x v) g'
            | Ok (None, g') => sample_loop body cfg rest v g'
            end
        end
    end.

  (** parameter.py 62-110 and 112-132. *)
  Definition sample (body : setting -> Rng -> result (option fl * Rng)) (st : pstate) (g : Rng)
      : pstate * result Rng :=
    let '(v, r) := sample_loop body (p_config st) (keys (p_values st)) (p_values st) g in
    (with_values st v, r).
  Definition sample_prior := sample prior_value.
  Definition sample_init := sample init_value.

  (** parameter.py 44-48: sorting the names into the two sets. Neither set is emptied first. *)
  Fixpoint classify (cfg : dict setting) (fixed fit : list string) : list string * list string * result unit :=
    match cfg with
    | [] => (fixed, fit, Ok tt)
    | (n, s) :: rest =>
        match s_type s with
        | None => (fixed, fit, Err KeyError)
        | Some ty =>
            if String.eqb ty "fixed" then classify rest (add1 n fixed) fit
            else classify rest fixed (add1 n fit)
        end
    end.

  (** parameter.py 34-55: init_parameter; [seed] is the random state np.random.seed leaves. *)
  Definition init_parameter (st : pstate) (seed : option Rng) (g : Rng) : pstate * result Rng :=
    let v0 := map (fun kv => (fst kv, Fin 0)) (p_config st) in
    match classify (p_config st) (p_fixed st) (p_fit st) with
    | (fixed, fit, Err e) => (mk_pstate (p_config st) fixed fit v0, Err e)
    | (fixed, fit, Ok _) =>
        sample_prior (mk_pstate (p_config st) fixed fit v0)
                     (match seed with Some s => s | None => g end)
    end.

  (** parameter.py 13-32: the constructor on a dictionary (deep copied). *)
  Definition new_parameter (cfg : dict setting) (g : Rng) : result (pstate * Rng) :=
    let '(st, r) := init_parameter (mk_pstate cfg [] [] []) None g in
    do g' <- r; Ok (st, g').
End WithRandom.

(** parameter.py 144-170: the contribution of one free parameter. *)
Definition prior_term (sigmas : fl -> fl -> result (fl * fl)) (s : setting) (v : fl) : result fl :=
  do args <- key (s_args s);
  do ty <- key (s_type s);
  do r <- key (s_range s);
  if flt v (fst r) || flt (snd r) v then Ok NInf
  else if String.eqb ty "norm" then
    do m <- key (get "mean" args);
    do sd <- key (get "std" args);
    Ok (fdiv (fdiv (fneg (fsqr (fsub v m))) (Fin 2)) (fsqr sd))
  else if String.eqb ty "twohalfnorm" then
    do ep <- key (get "sigma_pos" args);
    do en <- key (get "sigma_neg" args);
    do sg <- sigmas ep en;
    do mu <- key (get "mu" args);
    twohalf_logpdf v mu (fst sg) (snd sg)
  else Ok (Fin 0).

(** parameter.py 134-172: log_prior. The loop over the set is over a list without repetitions. *)
Fixpoint log_prior_loop (sigmas : fl -> fl -> result (fl * fl)) (cfg : dict setting)
    (v : dict fl) (names : list string) (acc : fl) : result fl :=
  match names with
  | [] => Ok acc
  | n :: rest =>
      do x <- key (get n v);
      do s <- key (get n cfg);
      do t <- prior_term sigmas s x;
      log_prior_loop sigmas cfg v rest (fadd acc t)
  end.

Definition log_prior (sigmas : fl -> fl -> result (fl * fl)) (st : pstate) : result fl :=
  log_prior_loop sigmas (p_config st) (p_values st) (p_fit st) (Fin 0).

(** Arguments of set_parameter and get_parameter, by Python type. *)
Inductive pkeys :=
| KStr (n : string)
| KList (l : list string)
| KSet (l : list string)
| KDict (d : dict fl)
| KOther.

(** The [vals] argument: a sequence, a number, None, or something else without a length. *)
Inductive pvals :=
| VSeq (l : list fl)
| VNum (x : fl)
| VNone
| VOther.

(** parameter.py 174-202: check_parameter_exist (the truth value). *)
Definition check_exist (st : pstate) (k : pkeys) : result bool :=
  match k with
  | KStr n => Ok (has n (p_values st))
  | KList l | KSet l => Ok (forallb (fun n => has n (p_values st)) l)
  | KDict d => Ok (forallb (fun n => has n (p_values st)) (keys d))
  | KOther => Err ValueError
  end.

(** for key, val in zip(keys, vals): self._parameter_dict[key] = val *)
Fixpoint assign (l : list string) (xs : list fl) (v : dict fl) : dict fl :=
  match l, xs with
  | n :: l', x :: xs' => assign l' xs' (set n x v)
  | _, _ => v
  end.

(** parameter.py 219-222: the branch for lists. *)
Definition set_list (st : pstate) (l : list string) (vals : pvals) : pstate * result unit :=
  match vals with
  | VSeq xs =>
      if Nat.eqb (List.length l) (List.length xs) then (with_values st (assign l xs (p_values st)), Ok tt)
      else (st, Err AssertionError)
  | _ => (st, Err TypeError)
  end.

(** parameter.py 204-228: set_parameter. *)
Definition set_parameter (st : pstate) (k : pkeys) (vals : pvals) : pstate * result unit :=
  match check_exist st k with
  | Err e => (st, Err e)
  | Ok false => (st, Err AssertionError)
  | Ok true =>
      match k with
      | KList l => set_list st l vals
      | KDict d => set_list st (keys d) (VSeq (map snd d))
      | KStr n =>
          match vals with
          | VNum x => (with_values st (set n x (p_values st)), Ok tt)
          | _ => (st, Err AssertionError)
          end
      | KSet _ | KOther => (st, Err ValueError)
      end
  end.

(** parameter.py 244-245: the list comprehension. *)
Fixpoint get_list (v : dict fl) (l : list string) : result (list fl) :=
  match l with
  | [] => Ok []
  | n :: rest =>
      do x <- key (get n v);
      do xs <- get_list v rest;
      Ok (x :: xs)
  end.

(** parameter.py 242-249: __getitem__; a single number is a one-element list here. *)
Definition getitem (st : pstate) (k : pkeys) : result (list fl) :=
  match k with
  | KStr n => do x <- key (get n (p_values st)); Ok [x]
  | KList l | KSet l => get_list (p_values st) l
  | KDict _ | KOther => Err ValueError
  end.

(** parameter.py 230-240: get_parameter. *)
Definition get_parameter (st : pstate) (k : pkeys) : result (list fl) :=
  do ok <- check_exist st k;
  if ok then getitem st k else Err AssertionError.

(** Python's order on strings: code point by code point. *)
Fixpoint sleb (a b : string) : bool :=
  match a, b with
  | EmptyString, _ => true
  | String _ _, EmptyString => false
  | String x a', String y b' =>
      if Nat.ltb (nat_of_ascii x) (nat_of_ascii y) then true
      else if Nat.ltb (nat_of_ascii y) (nat_of_ascii x) then false
      else sleb a' b'
  end.

(** Python's sorted on a list of strings (insertion sort). *)
Fixpoint insert_str (x : string) (l : list string) : list string :=
  match l with
  | [] => [x]
  | y :: l' => if sleb x y then x :: l else y :: insert_str x l'
  end.
Definition sorted_names (l : list string) : list string := fold_right insert_str [] l.

(** parameter.py 57-60 and 251-254. *)
Definition parameter_fit (st : pstate) : list string := sorted_names (p_fit st).
Definition parameter_fit_array (st : pstate) : result (list fl) :=
  get_parameter st (KList (parameter_fit st)).
