(** Vocabulary for the profiler (C92). No proofs. *)
From Coq Require Import Reals.
From Verif Require Import Base ModelShare ModelConfig ModelFloat ModelComponent ModelCompile ModelProfiler.
Local Open Scope string_scope.
Local Open Scope list_scope.

Section Runs.
  Variable V : Type.
  Variable isem : instance -> list V -> result (list V).

  (** [n] calls in a row (at least one) with the same inputs, each with the key that the previous one
      returned; [vs] is what the last one returned. *)
  Inductive Runs (i : instance) (pars : V) (argv : list V)
    : nat -> V -> list (instance * list V) -> V -> list V -> Prop :=
  | Runs_once k k1 vs :
      isem i (k :: pars :: argv) = Ok (k1 :: vs) ->
      Runs i pars argv 1 k [(i, k :: pars :: argv)] k1 vs
  | Runs_again n k k1 k2 vs vs' cs :
      isem i (k :: pars :: argv) = Ok (k1 :: vs) ->
      Runs i pars argv n k1 cs k2 vs' ->
      Runs i pars argv (S n) k ((i, k :: pars :: argv) :: cs) k2 vs'.

  (** The plugins [ps] in turn, each run [n] times by an instance made for likelihood [llh], with the
      values [E] as inputs; the outputs of its last run are the values of what it provides. *)
  Inductive Profiled (llh : string) (E : string -> option V) (pars : V) (n : nat)
    : V -> list plugin -> list (instance * list V) -> V -> Prop :=
  | Profiled_nil k : Profiled llh E pars n k [] [] k
  | Profiled_cons k k1 k2 i p ps argv vs cs cs' :
      i_class i = p -> i_llh i = Some llh ->
      map E (p_depends p) = map Some argv ->
      Runs i pars argv n k cs k1 vs ->
      map E (p_provides p) = map Some vs ->
      Profiled llh E pars n k1 ps cs' k2 ->
      Profiled llh E pars n k (p :: ps) (cs ++ cs') k2.
End Runs.

(** Every plugin returns a key and one value for each name it provides. *)
Definition answers {V} (isem : instance -> list V -> result (list V)) : Prop :=
  forall i args, List.length args = 2 + List.length (p_depends (i_class i)) ->
    exists key vs, isem i args = Ok (key :: vs) /\
      List.length vs = List.length (p_provides (i_class i)).

(** The durations, in milliseconds, between the readings [t] and [t+1], [t+2] and [t+3], ... *)
Definition measured (clock : nat -> R) (t n : nat) (ts : list R) : Prop :=
  List.length ts = n /\
  forall j, (j < n)%nat -> nth_error ts j = Some (1000 * (clock (t + 2 * j + 1)%nat - clock (t + 2 * j)%nat))%R.

(** Mean and standard deviation of some durations. *)
Definition statistics (ts : list R) (m s : fl) : Prop :=
  exists a d, m = Fin a /\ s = Fin d /\
    (INR (List.length ts) * a = fold_right Rplus 0 ts)%R /\ (0 <= d)%R /\
    (INR (List.length ts) * (d * d) = fold_right Rplus 0 (map (fun t => (t - a) * (t - a)) ts))%R.

(** [n] whole simulations, each with the key that the one before it returned. *)
Inductive Sims {V} (isem : instance -> list V -> result (list V)) (k : component) (pars batch : V)
  : nat -> V -> V -> Prop :=
| Sims_none key : Sims isem k pars batch 0 key key
| Sims_more n key key1 key2 outs :
    simulate V isem k key batch pars = Ok (key1, outs) ->
    Sims isem k pars batch n key1 key2 ->
    Sims isem k pars batch (S n) key key2.

(** A name without a slash. *)
Definition no_slash (s : string) : Prop := forall a b, s <> (a ++ "/" ++ b)%string.
