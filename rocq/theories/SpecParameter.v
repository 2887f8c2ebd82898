(** Vocabulary for the parameter properties (C21-C24) and the two-half-normal (C41). No proofs. *)
From Coq Require Import Reals Sorting.Sorted.
From Verif Require Import Base ModelFloat ModelParameter.
Local Open Scope string_scope.
Local Open Scope R_scope.

(** The value lies in the allowed range, ends included. *)
Definition in_range (s : setting) (v : fl) : Prop :=
  exists lo hi, s_range s = Some (lo, hi) /\ fle lo v = true /\ fle v hi = true.

(** The prior types that sample_prior knows and that are not fixed. *)
Definition known_types : list string := ["norm"; "twohalfnorm"; "uniform"; "free"].

(** A setting whose prior can be evaluated: complete, widths positive and finite, range not NaN. *)
Inductive proper (sigmas : fl -> fl -> result (fl * fl)) (s : setting) : Prop :=
| proper_norm args m sd lo hi :
    s_type s = Some "norm" -> s_args s = Some args -> s_range s = Some (lo, hi) ->
    get "mean" args = Some (Fin m) -> get "std" args = Some (Fin sd) -> 0 < sd ->
    lo <> NaN -> hi <> NaN -> proper sigmas s
| proper_twohalf args ep en mu sp sn lo hi :
    s_type s = Some "twohalfnorm" -> s_args s = Some args -> s_range s = Some (lo, hi) ->
    get "mu" args = Some (Fin mu) -> get "sigma_pos" args = Some ep -> get "sigma_neg" args = Some en ->
    sigmas ep en = Ok (Fin sp, Fin sn) -> 0 < sp -> 0 < sn ->
    lo <> NaN -> hi <> NaN -> proper sigmas s
| proper_flat ty args lo hi :
    s_type s = Some ty -> ty <> "norm" -> ty <> "twohalfnorm" ->
    s_args s = Some args -> s_range s = Some (lo, hi) -> lo <> NaN -> hi <> NaN -> proper sigmas s.

(** The logarithm of the prior density of one parameter at [v] (not normalised for "norm"). *)
Inductive log_density (sigmas : fl -> fl -> result (fl * fl)) (s : setting) (v : R) : R -> Prop :=
| ld_norm args m sd :
    s_type s = Some "norm" -> s_args s = Some args ->
    get "mean" args = Some (Fin m) -> get "std" args = Some (Fin sd) ->
    log_density sigmas s v (- ((v - m) * (v - m)) / (2 * (sd * sd)))
| ld_twohalf args ep en mu sp sn :
    s_type s = Some "twohalfnorm" -> s_args s = Some args ->
    get "mu" args = Some (Fin mu) -> get "sigma_pos" args = Some ep -> get "sigma_neg" args = Some en ->
    sigmas ep en = Ok (Fin sp, Fin sn) ->
    log_density sigmas s v
      (- ((v - mu) * (v - mu)) / (2 * ((if Rlt_dec v mu then sn else sp) * (if Rlt_dec v mu then sn else sp)))
       + ln (2 / ((sp + sn) * sqrt (2 * PI))))
| ld_flat ty :
    s_type s = Some ty -> ty <> "norm" -> ty <> "twohalfnorm" -> log_density sigmas s v 0.

(** Every free parameter has a proper setting and a finite value. *)
Definition evaluable (sigmas : fl -> fl -> result (fl * fl)) (st : pstate) : Prop :=
  forall n, In n (p_fit st) ->
    exists s v, get n (p_config st) = Some s /\ get n (p_values st) = Some (Fin v) /\ proper sigmas s.

(** Some free parameter lies outside its allowed range. *)
Definition outside (st : pstate) (n : string) : Prop :=
  exists s v, get n (p_config st) = Some s /\ get n (p_values st) = Some v /\ ~ in_range s v.

(** A setting from which values can be drawn: complete, finite arguments, non-empty range. *)
Inductive drawable (sigmas : fl -> fl -> result (fl * fl)) (s : setting) : Prop :=
| drawable_norm args m sd lo hi :
    s_type s = Some "norm" -> s_args s = Some args -> s_range s = Some (lo, hi) ->
    get "mean" args = Some (Fin m) -> get "std" args = Some (Fin sd) -> 0 < sd ->
    fle lo hi = true -> drawable sigmas s
| drawable_twohalf args ep en mu sp sn lo hi :
    s_type s = Some "twohalfnorm" -> s_args s = Some args -> s_range s = Some (lo, hi) ->
    get "mu" args = Some (Fin mu) -> get "sigma_pos" args = Some ep -> get "sigma_neg" args = Some en ->
    sigmas ep en = Ok (Fin sp, Fin sn) -> 0 < sp -> 0 < sn ->
    fle lo hi = true -> drawable sigmas s
| drawable_uniform args a b lo hi :
    s_type s = Some "uniform" -> s_args s = Some args -> s_range s = Some (lo, hi) ->
    get "lower" args = Some (Fin a) -> get "upper" args = Some (Fin b) ->
    fle lo hi = true -> drawable sigmas s
| drawable_free args m sd lo hi :
    s_type s = Some "free" -> s_args s = Some args -> s_range s = Some (lo, hi) ->
    s_mean s = Some (Fin m) -> s_std s = Some (Fin sd) -> 0 < sd ->
    fle lo hi = true -> drawable sigmas s
| drawable_fixed args v :
    s_type s = Some "fixed" -> s_args s = Some args -> get "val" args = Some v -> drawable sigmas s.

(** A finite initial guess, a non-empty range, or a fixed value. *)
Inductive startable (s : setting) : Prop :=
| startable_guess ty args m sd lo hi :
    s_type s = Some ty -> ty <> "fixed" -> s_args s = Some args -> s_range s = Some (lo, hi) ->
    s_mean s = Some (Fin m) -> s_std s = Some (Fin sd) -> 0 < sd ->
    fle lo hi = true -> startable s
| startable_fixed args v :
    s_type s = Some "fixed" -> s_args s = Some args -> get "val" args = Some v -> startable s.

Section Draws.
  Context {Rng : Type}.
  Variables normal uniform : fl -> fl -> Rng -> result (fl * Rng).

  (** Draws with finite arguments (and positive width) succeed with a finite number. *)
  Definition draws_finite : Prop :=
    (forall m sd g, 0 < sd -> exists v g', normal (Fin m) (Fin sd) g = Ok (Fin v, g')) /\
    (forall a b g, exists v g', uniform (Fin a) (Fin b) g = Ok (Fin v, g')).
End Draws.

(** A range with more than infinite points. *)
Definition reachable_range (s : setting) : Prop :=
  exists lo hi, s_range s = Some (lo, hi) /\ lo <> PInf /\ hi <> NInf.

(** What a parameter must look like after sampling: its configured value if fixed, otherwise in
    the allowed range, and finite unless the range consists of infinite points only. *)
Definition sampled_ok (s : setting) (v : fl) : Prop :=
  if match s_type s with Some ty => String.eqb ty "fixed" | None => false end
  then exists args, s_args s = Some args /\ get "val" args = Some v
  else in_range s v /\ (reachable_range s -> exists r, v = Fin r).

(** Alphabetical order by character code. *)
Inductive before : string -> string -> Prop :=
| before_nil c s : before EmptyString (String c s)
| before_head c d s t : (nat_of_ascii c < nat_of_ascii d)%nat -> before (String c s) (String d t)
| before_tail c s t : before s t -> before (String c s) (String c t).

(** The value that the last occurrence of [n] in [l] is paired with. *)
Fixpoint last_value (l : list string) (xs : list fl) (n : string) : option fl :=
  match l, xs with
  | m :: l', x :: xs' =>
      match last_value l' xs' n with
      | Some y => Some y
      | None => if String.eqb n m then Some x else None
      end
  | _, _ => None
  end.

(** The names and values that an argument pair of set_parameter stands for, if it is valid. *)
Inductive assignment : pkeys -> pvals -> list string -> list fl -> Prop :=
| as_str n x : assignment (KStr n) (VNum x) [n] [x]
| as_list l xs : List.length l = List.length xs -> assignment (KList l) (VSeq xs) l xs
| as_dict d vals : assignment (KDict d) vals (keys d) (map snd d).

(** The states a Parameter object can be in: constructed, then any sequence of calls, failing ones
    included. *)
Section Reachable.
  Variable Rng : Type.
  Variables normal uniform : fl -> fl -> Rng -> result (fl * Rng).
  Variable sigmas : fl -> fl -> result (fl * fl).

  Inductive reachable (cfg : dict setting) : pstate -> Prop :=
  | r_new g st g' : new_parameter Rng normal uniform sigmas cfg g = Ok (st, g') -> reachable cfg st
  | r_set st k vals : reachable cfg st -> reachable cfg (fst (set_parameter st k vals))
  | r_prior st g : reachable cfg st -> reachable cfg (fst (sample_prior Rng normal uniform sigmas st g))
  | r_init st g : reachable cfg st -> reachable cfg (fst (sample_init Rng normal st g))
  | r_reinit st seed g : reachable cfg st ->
      reachable cfg (fst (init_parameter Rng normal uniform sigmas st seed g)).
End Reachable.

(** The name is configured, and not as fixed (or as fixed). *)
Definition is_free (cfg : dict setting) (n : string) : Prop :=
  exists s ty, In (n, s) cfg /\ s_type s = Some ty /\ ty <> "fixed".
Definition is_fixed (cfg : dict setting) (n : string) : Prop :=
  exists s, In (n, s) cfg /\ s_type s = Some "fixed".
