(** Model of the normalisation on the number of simulated events, norm_type "on_sim"
    (appletree/component.py). No proofs in this file. *)
From Verif Require Import Base ModelShare ModelConfig ModelComponent ModelCompile ModelFloat
  ModelLikelihood ModelRecompile.
Local Open Scope string_scope.

(** component.py:168-170 [_cached_functions[llh_name][bootstrap_name]]: an instance by its global
    name in a namespace. Simplified: a namespace only holds the functions executed in it, each
    with its instances (ModelComponent.v); a name of an imported class or of the function itself
    that equals the name of an instance is not modelled. *)
Fixpoint ns_instance (n : string) (ns : namespace) : option instance :=
  match ns with
  | [] => None
  | (_, cl) :: rest =>
      match get n (cl_insts cl) with
      | Some i => Some i
      | None => ns_instance n rest
      end
  end.

Section OnSim.
  (** [.g4.n_events_selected] of a plugin instance (component.py:170); no plugin of the repository
      has it, an AttributeError is possible. *)
  Variable selected : instance -> result fl.

  (** component.py:165-171: the number of events selected by the bootstrap, or none if the energy
      does not come from a bootstrap. *)
  Definition mcinput_of (k : component) (w : world) : result (option fl) :=
    match get "energy" (k_registry k) with
    | None => Err KeyError
    | Some p =>
        if has_bootstrap (p_name p) then
          match get (k_llh k) (w_fn w) with
          | None => Err KeyError
          | Some a =>
              match ns_instance (p_name p ++ "_" ++ k_name k) (nth a (w_heap w) []) with
              | None => Err KeyError
              | Some i => match selected i with Ok n => Ok (Some n) | Err e => Err e end
              end
          end
        else Ok None
    end.

  Variable K : Type.
  Variable oor : list (list fl) -> nat -> list fl.
  (** What a compiled function returns, as rows (component.py:449-455). *)
  Variable rsem : closure -> K -> nat -> params -> result (K * list (list fl)).

  Definition rows_of (k : component) (key : K) (b : nat) (p : params)
    : result (K * list (list fl)) :=
    match k_simulate k with
    | None => Err AttributeError
    | Some cl => rsem cl key b p
    end.

  (** component.py:440-464 simulate_hist of a component in the present state of the process.
      Simplified: a batch size or a number of selected events that is the integer 0 is a
      ZeroDivisionError in Python and an infinite factor here. *)
  Definition simulate_hist_in (norm : norm_type) (eps : bool) (b : binning) (k : component)
      (w : world) (key : K) (batch : nat) (p : params) : result (K * list fl) :=
    sim_hist oor (mk_cnum (k_rate k) norm eps (k_noeff k) b (mcinput_of k w)) (rows_of k)
      key batch p.
End OnSim.
